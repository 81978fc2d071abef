#!/usr/bin/env python3
"""Mutation harness (step 5): python3 tools/mutate.py MUTATIONS.py [j]

For each mutation a scratch copy of /verif/rocq (with its compiled files) is made
under /tmp, one model file is edited, and the build is repeated.  Each lemma whose proof no
longer goes through is replaced by Admitted *in the scratch copy* so that all the
failures are found, and the property theorems that fail, or whose Print
Assumptions now shows one of those lemmas, are reported.
One JSON line per mutation is appended to seeded/LOG.jsonl.
"""
import json, os, re, shutil, subprocess, sys, time
HERE = os.path.abspath(os.path.join(os.path.dirname(os.path.abspath(__file__)), ".."))
MUTS = []
def m(file, definition, old, new, claim, **kw): MUTS.append(dict(file=file, definition=definition, old=old, new=new, claim=claim, **kw))
exec(open(sys.argv[1]).read())
J = sys.argv[2] if len(sys.argv) > 2 else "3"
WORK = "/tmp/mutwork" + os.path.basename(sys.argv[1]).replace(".py", "")
HEAD = re.compile(r"^\s*(?:#\[[^\]]*\]\s*)?(?:Local |Global )?(Lemma|Theorem|Corollary|Example|Fact|Remark|Proposition|Definition|Fixpoint|Instance)\s+(\w+)", re.M)
def done_keys():
    s = set()
    p = HERE + "/seeded/LOG.jsonl"
    if os.path.exists(p):
        for l in open(p):
            d = json.loads(l); s.add((d["definition"], d["edit"]))
    return s
def run(mu):
    edit = f"{mu['file']}: `{mu['old']}` -> `{mu['new']}`"
    if (mu["definition"], edit) in done_keys(): return
    shutil.rmtree(WORK, ignore_errors=True)
    subprocess.run(["cp", "-a", os.environ.get("MUTBASE", HERE + "/rocq"), WORK], check=True)
    f = f"{WORK}/theories/{mu['file']}"
    src = open(f).read()
    n = src.count(mu["old"])
    if n == 0 or (n > 1 and not mu.get("multi")):
        print("BAD MUTATION", n, edit, flush=True); return
    open(f, "w").write(src.replace(mu["old"], mu["new"]))
    failed, outs, note = [], {}, ""
    start = time.time()
    for it in range(60):
        p = subprocess.run(["timeout", "1500", "make", "-k", "-O", "-j", J, "-f", "Makefile"], cwd=WORK, stdout=subprocess.PIPE, stderr=subprocess.STDOUT, text=True)
        out = p.stdout
        for b in re.split(r"^(?=COQC )", out, flags=re.M)[1:]: outs[b.split()[1][len("theories/"):]] = b
        errs = re.findall(r'File "\./(theories/\w+\.v)", line (\d+), characters (\d+)-(\d+):\n(Error[^\n]*(?:\n[^\n]+)*)', out)
        if p.returncode == 0: break
        if not errs:
            note = "build: " + out[-300:]; break
        bad = False
        for file, line, c1, c2, msg in errs:
            path = f"{WORK}/{file}"
            t = open(path).read().split("\n")
            ln = int(line) - 1
            k = ln
            while k >= 0 and not HEAD.match(t[k]): k -= 1
            kind, name = HEAD.match(t[k]).groups()
            # replace the proof by Admitted
            pr = k
            while pr < len(t) and not re.search(r"\bProof\b", t[pr]): pr += 1
            q = pr
            while q < len(t) and not re.search(r"\b(Qed|Defined)\.", t[q]): q += 1
            if not (k <= ln <= q) or pr > ln or kind in ("Definition", "Fixpoint"):
                failed.append(f"{name} (statement no longer typechecks)"); note = f"{file}:{line}: {msg[:200]}"; bad = True; continue
            failed.append(name)
            head = t[pr][:re.search(r"\bProof\b", t[pr]).start()]
            tail = t[q][re.search(r"\b(Qed|Defined)\.", t[q]).end():]
            t[pr:q+1] = [head + "Admitted." + tail]
            open(path, "w").write("\n".join(t))
        if bad: break
    # property theorems
    props = []
    for pf in sorted(os.listdir(WORK + "/theories")):
        if not pf.startswith("Properties") or not pf.endswith(".v"): continue
        if mu.get("only") and pf not in mu["only"]: continue
        if pf not in outs: continue   # untouched by the build: does not depend on the edited file
        order = re.findall(r"^Print Assumptions (\w+)\.", open(f"{WORK}/theories/{pf}").read(), re.M)
        blocks = re.split(r"^(?=Axioms:|Closed under the global context)", outs[pf], flags=re.M)[1:]
        for name, b in zip(order, blocks):
            if any(re.search(r"\b%s\b\s*:" % re.escape(x), b) or x == name for x in failed): props.append(name)
        for x in failed:
            if x in order and x not in props: props.append(x)
    rec = {"definition": mu["definition"], "edit": edit, "claim": mu["claim"], "failed": sorted(props),
           "failed_lemmas": failed, "tightened": mu.get("tightened", [])}
    if note: rec["note"] = note
    print(json.dumps(rec), flush=True)
    open(HERE + "/seeded/LOG.jsonl", "a").write(json.dumps(rec) + "\n")
for mu in MUTS: run(mu)
