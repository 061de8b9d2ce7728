#!/usr/bin/env python3
"""Random operator mutations of the model, in a scratch copy. An edit that does not compile in its own
file is skipped; otherwise everything depending on it is rebuilt until a proof fails.
usage: automutate.py seed count out.jsonl   (MUTSRC: a built copy of rocq/, MUTDIR: scratch)"""
import json, os, random, re, shutil, subprocess, sys
SRC = os.environ.get("MUTSRC", "/tmp/mut/src"); DST = os.environ.get("MUTDIR", "/tmp/mut/auto/rocq")
FILES = ["Construct", "LocalSearch", "HyperSearch", "ItemsManip", "Settings", "Instance", "MultiProcess", "MultiHistory",
         "Report", "Text", "Utils", "Values", "Perms", "Arith", "FloatArith", "Py"] + os.environ.get("MUTMORE", "").split()
OPS = [(r"<\?", "<=?"), (r"<=\?", "<?"), (r"=\?", "<=?"), (r">\?", ">=?"), (r" \+ 1\b", " + 2"), (r" - 1\b", " - 0"), (r" \+ 1\b", ""),
       (r"&&", "||"), (r"\|\|", "&&"), (r"\bnegb ", ""), (r"\btrue\b", "false"), (r"\bfalse\b", "true"), (r"\bfst\b", "snd"),
       (r"\bsnd\b", "fst"), (r"Z\.max\b", "Z.min"), (r"Z\.min\b", "Z.max"), (r"\bdw\b", "dl"), (r"\bdl\b", "dw"), (r"\be_w\b", "e_l"),
       (r"\be_x\b", "e_y"), (r"\be_y\b", "e_x"), (r"\be_l\b", "e_w"), (r" \* ", " + "), (r" \+ ", " - "), (r" - ", " + "), (r"\bKItems\b", "KContainers"),
       (r"\bwkey\b", "lkey"), (r"\blkey\b", "wkey"), (r"\b0\b", "1"), (r"\b1\b", "2"), (r"\bTypeError\b", "ValueError"), (r"\bKeyError\b", "TypeError"),
       (r"\bErr \w+", "Err ValueError"), (r" ++ ", " +++ ")]
def enclosing(path, line):
    name = "?"
    for i, l in enumerate(open(path), 1):
        if i > line: break
        m = re.match(r"\s*(?:Local |Global )?(?:Lemma|Theorem|Example|Definition|Fixpoint|Corollary|Fact|Remark|Inductive)\s+([\w']+)", l)
        if m: name = m.group(1)
    return name
def sites(f):
    s = open(f"{SRC}/theories/{f}.v").read()
    code = re.sub(r"\(\*.*?\*\)", lambda m: " " * len(m.group(0)), s, flags=re.S)
    code = re.sub(r'"[^"\n]*"', lambda m: " " * len(m.group(0)), code)
    code = re.sub(r"^(From|Import|Open|Notation|Record|Section|Context|End|Proof|Lemma).*$", lambda m: " " * len(m.group(0)), code, flags=re.M)
    for pat, new in OPS:
        for m in re.finditer(pat, code): yield (f, m.start(), m.end(), new)
def main():
    seed, count, outp = int(sys.argv[1]), int(sys.argv[2]), sys.argv[3]
    done = set()
    for p in (outp,):
        if os.path.exists(p):
            for l in open(p): done.add(json.loads(l)["site"])
    allsites = [x for f in FILES for x in sites(f)]
    random.Random(seed).shuffle(allsites); print(len(allsites), "sites", flush=True)
    out = open(outp, "a"); n = 0
    for f, a, b, new in allsites:
        if n >= count: break
        key = f"{f}:{a}:{new}"
        if key in done: continue
        s = open(f"{SRC}/theories/{f}.v").read(); line = s.count("\n", 0, a) + 1
        shutil.rmtree(DST, ignore_errors=True); subprocess.run(["cp", "-a", SRC, DST], check=True)
        p = f"{DST}/theories/{f}.v"; open(p, "w").write(s[:a] + new + s[b:])
        r = subprocess.run(["make", f"theories/{f}.vo"], cwd=DST, capture_output=True, text=True)
        if r.returncode: continue
        d = f + "." + enclosing(p, line); n += 1
        old_line = s.split("\n")[line-1].strip(); new_line = open(p).read().split("\n")[line-1].strip()
        fails = []
        for _ in range(8):
            r = subprocess.run(["make", "-j2"], cwd=DST, capture_output=True, text=True)
            if r.returncode == 0: break
            again = False
            for m in re.finditer(r'File "\./theories/(\w+)\.v", line (\d+), characters[^\n]*\n(Error)?', r.stdout + r.stderr):
                if not m.group(3): continue
                q = f"{DST}/theories/{m.group(1)}.v"; name = enclosing(q, int(m.group(2))); fails.append(m.group(1) + "." + name)
                t = open(q).read()
                e = re.search(r"^Example " + re.escape(name) + r"\b.*?^(?:Qed\.|Proof\..*Qed\.)$", t, re.S | re.M)
                if e and (m.group(1).startswith("Properties") or m.group(1) == "Validation"):
                    fails[-1] += " (example)"; again = True; open(q, "w").write(t[:e.start()] + t[e.end():])
            if not again: break
        real = [x for x in fails if "(example)" not in x]
        rec = {"definition": d, "edit": old_line + "  -->  " + new_line, "theorems_failed": sorted(set(fails)), "site": key, "survived": not real}
        out.write(json.dumps(rec) + "\n"); out.flush()
        print(("SURVIVED " if not real else "killed   ") + d, "|", rec["edit"][:200], "|", rec["theorems_failed"], flush=True)
main()
