#!/usr/bin/env python3
"""Write ASSUMPTIONS.md: what Print Assumptions says of every theorem in MANIFEST.json.
Needs a compiled /verif/rocq.  Usage: python3 tools/assumptions.py [jobs]"""
import json, os, re, subprocess, sys, tempfile
from concurrent.futures import ThreadPoolExecutor
HERE = os.path.abspath(os.path.join(os.path.dirname(os.path.abspath(__file__)), ".."))
R = HERE + "/rocq"
claims = json.load(open(HERE + "/MANIFEST.json"))["claims"]
thms = [t for c in claims for t in c["theorems"]]
where = {}
for f in sorted(os.listdir(R + "/theories")):
    if f.endswith(".v"):
        for n in re.findall(r"^(?:Theorem|Lemma|Corollary)\s+(\w+)", open(f"{R}/theories/{f}").read(), re.M):
            where.setdefault(n, f[:-2])
groups = {}
for t in thms: groups.setdefault(where[t], []).append(t)
def one(mod):
    d = tempfile.mkdtemp()
    p = d + "/pa.v"
    with open(p, "w") as o:
        o.write(f"From Verif Require Import {mod}.\nSet Printing Width 1000.\n")
        for t in groups[mod]: o.write(f"Print Assumptions {mod}.{t}.\n")
    r = subprocess.run(["coqc", "-Q", R + "/theories", "Verif", p], stdout=subprocess.PIPE, stderr=subprocess.PIPE, text=True)
    if r.returncode: raise SystemExit(mod + ": " + r.stderr)
    blocks = re.split(r"^(?=Axioms:|Closed under the global context)", r.stdout, flags=re.M)[1:]
    assert len(blocks) == len(groups[mod]), mod
    return [(t, tuple(sorted(set(re.findall(r"^(\S+)\s+:", b, re.M)) - {"Axioms"}))) for t, b in zip(groups[mod], blocks)]
with ThreadPoolExecutor(int(sys.argv[1]) if len(sys.argv) > 1 else 2) as ex:
    res = dict(x for l in ex.map(one, sorted(groups)) for x in l)
full = {"sig_forall_dec": "ClassicalDedekindReals (Coq stdlib)", "sig_not_dec": "ClassicalDedekindReals (Coq stdlib)",
        "functional_extensionality_dep": "FunctionalExtensionality (Coq stdlib)", "classic": "Classical_Prop (Coq stdlib)"}
sets = {}
for t in thms: sets.setdefault(res[t], []).append(t)
def prim(a): return a.startswith("PrimInt63") or a.startswith("PrimFloat") or a.startswith("Uint63") or a.startswith("FloatAxioms") or a.startswith("FloatOps")
with open(HERE + "/ASSUMPTIONS.md", "w") as o:
    o.write("# What `Print Assumptions` lists\n\nGenerated by `tools/assumptions.py` from the compiled files.  "
            f"{len(thms)} theorems, {len(sets)} distinct sets of assumptions.  No axiom of our own occurs.\n\n## Axioms that occur\n\n")
    for a in sorted(set(a for s in sets for a in s)):
        o.write(f"- `{a}`" + (f" — {full[a.split('.')[-1]]}" if a.split('.')[-1] in full else "")
                + (" — Coq stdlib, machine integers and floats (used by the interval tactic)" if prim(a) else "") + "\n")
    o.write("\n## Theorems by set of assumptions\n")
    for s, l in sorted(sets.items(), key=lambda x: (len(x[0]), x[0])):
        o.write(f"\n### {len(l)} theorem{'s' if len(l) > 1 else ''}: " + ("closed under the global context" if not s else f"{len(s)} axioms") + "\n\n")
        if s: o.write("Axioms: " + ", ".join(f"`{a}`" for a in s) + "\n\n")
        o.write("Theorems: " + ", ".join(f"`{t}`" for t in l) + "\n")
