#!/usr/bin/env python3
"""Seeded-bug runs: for every mutation (file, old, new, claim) of a JSON-lines file, apply it to
a scratch copy of rocq/, rebuild with make -k, and report which proofs fail.
usage: mutate.py mutations.json out.jsonl   (mutations: list of [file, definition, old, new, claim])"""
import json, os, re, shutil, subprocess, sys
SRC = os.environ.get("MUTSRC", "/verif/rocq"); DST = os.environ.get("MUTDIR", "/tmp/mut/rocq")
def enclosing(path, line):
    name = "?"
    for i, l in enumerate(open(path), 1):
        if i > line: break
        m = re.match(r"\s*(?:Local |Global )?(?:Lemma|Theorem|Example|Definition|Fixpoint|Corollary|Fact|Remark)\s+([\w']+)", l)
        if m: name = m.group(1)
    return name
def main():
    muts = json.load(open(sys.argv[1])); out = open(sys.argv[2], "a")
    for f, d, old, new, claim in muts:
        shutil.rmtree(DST, ignore_errors=True); subprocess.run(["cp", "-a", SRC, DST], check=True)
        p = f"{DST}/theories/{f}.v"; s = open(p).read()
        if s.count(old) < 1: print("NOT FOUND", f, d, old); continue
        k = s.index(d) if d in s else 0
        i = s.find(old, k)
        if i < 0: i = s.index(old)
        open(p, "w").write(s[:i] + new + s[i+len(old):])
        fails = []
        for _ in range(6):   # a failing Example (a test) is removed and the build resumed
            r = subprocess.run(["make", "-k", "-j3"], cwd=DST, capture_output=True, text=True, timeout=3000)
            again = False
            for m in re.finditer(r'File "\./theories/(\w+)\.v", line (\d+), characters[^\n]*\n(Error)?', r.stdout + r.stderr):
                if not m.group(3): continue
                q = f"{DST}/theories/{m.group(1)}.v"; name = enclosing(q, int(m.group(2)))
                fails.append(m.group(1) + "." + name)
                t = open(q).read()
                e = re.search(r"^Example " + re.escape(name) + r"\b.*?^(?:Qed\.|Proof\..*Qed\.)$", t, re.S | re.M)
                if e and m.group(1).startswith("Properties"):
                    fails[-1] += " (example)"; again = True
                    open(q, "w").write(t[:e.start()] + t[e.end():])
            if not again: break
        blocked = sorted(x[:-2] for x in os.listdir(DST + "/theories") if x.endswith(".v") and x.startswith("Properties")
                   and subprocess.run(["make", "-q", f"theories/{x}o"], cwd=DST, capture_output=True).returncode)
        rec = {"definition": f + "." + d, "edit": old + "  -->  " + new, "claim_broken": claim, "theorems_failed": sorted(set(fails)), "property_files_blocked": blocked, "theorems_tightened": []}
        out.write(json.dumps(rec) + "\n"); out.flush()
        print(("SURVIVED " if not [x for x in fails if not x.startswith("Validation.") and "(example)" not in x] else "killed   ") + rec["definition"], "|", rec["edit"], "|", rec["theorems_failed"], flush=True)
main()
