#!/usr/bin/env python3
"""Source of MANIFEST.json (run from /verif: python3 tools/manifest.py)."""
import json, os, re, glob
HERE = os.path.join(os.path.dirname(os.path.abspath(__file__)), "..")
names = set()
for f in glob.glob(os.path.join(HERE, "rocq/theories/*.v")):
    names |= set(re.findall(r"^(?:Theorem|Lemma|Corollary|Fact|Proposition)\s+(\w+)", open(f).read(), re.M))
NOTES = {}
exec(open(os.path.join(HERE, "tools/manifest_notes.py")).read())
props = [json.loads(l)["id"] for l in open(os.path.join(HERE, "properties.jsonl"))]
claims = []
for pid in props:
    ths = sorted(n for n in names if re.match(pid + r"_", n))
    st, note = NOTES.get(pid, ("proved" if ths else None, ""))
    if st is None:
        print("no theorem for", pid); continue
    if st == "proved" and any(n.endswith("_partial") for n in ths): print("partial theorem in", pid)
    claims.append(dict(property=pid, status=st, theorems=ths, note=note))
json.dump({"claims": claims}, open(os.path.join(HERE, "MANIFEST.json"), "w"), indent=1)
print(len(claims))
