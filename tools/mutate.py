#!/usr/bin/env python3
"""Test the theorems against wrong programs.

usage: mutate.py MUTANTS.json [id ...]

Each mutant is {"id", "file", "definition", "old", "new", "edit", "claim"}, optionally with
"props", the property files to check (default: the first one that depends on the file).  For each one a
scratch copy of rocq/ is made outside /verif, the edit is applied, and every file that depends
on the edited one is recompiled, in the order of dependency.  A lemma whose proof breaks (or does not
finish) is admitted in the scratch copy and recorded, and compilation goes on; a property
theorem counts as failed if Print Assumptions then lists an admitted lemma for it.
One line per mutant is appended to seeded/LOG.jsonl.
"""
import json, os, re, shutil, subprocess, sys, tempfile
from concurrent.futures import ThreadPoolExecutor
ROOT = os.path.dirname(os.path.dirname(os.path.abspath(__file__)))
HEAD = re.compile(r"^\s*(?:#\[[^\]]*\]\s*)?(?:Local\s+|Global\s+)?(Lemma|Theorem|Example|Corollary|Fact|Remark|Definition|Fixpoint|Record|Inductive|Ltac)\s+([\w']+)", re.M)

def deps(d, files):
    out = subprocess.run(["coqdep", "-Q", "theories", "Verif"] + files, cwd=d, capture_output=True, text=True).stdout
    g = {}
    for l in out.splitlines():
        m = re.match(r"(theories/\w+)\.vo\b.*?:\s*(.*)", l)
        if m:
            g[m.group(1) + ".v"] = {x[:-3] + ".v" for x in m.group(2).split() if x.endswith(".vo") and x.startswith("theories/")}
    return g

def coqc(d, f, limit):
    try:
        r = subprocess.run(["timeout", str(limit), "coqc", "-time", "-Q", "theories", "Verif", f], cwd=d, capture_output=True, text=True)
    except Exception as e:
        return 1, "", str(e), None
    last = 0
    for m in re.finditer(r"^Chars (\d+) - (\d+) ", r.stdout, re.M):
        last = int(m.group(2))
    return r.returncode, r.stdout, r.stderr, last

def admit(src, pos):
    """Replace the proof around offset pos by Admitted; returns (new source, name) or None."""
    heads = [m for m in HEAD.finditer(src) if m.start() <= pos]
    if not heads:
        return None
    h = heads[-1]
    if h.group(1) in ("Definition", "Fixpoint", "Record", "Inductive", "Ltac"):
        return None
    m = re.compile(r"\bProof\b.*?\b(Qed|Defined)\.", re.S).search(src, h.start())
    if not m or pos < m.start():
        return None
    return src[:m.start()] + "Admitted." + src[m.end():], h.group(2)

BASE = tempfile.mkdtemp(prefix="mutbase_", dir="/tmp")  # snapshot, so that editing can go on

def run(mu):
    d = tempfile.mkdtemp(prefix="mut_", dir="/tmp")
    try:
        shutil.copytree(os.path.join(BASE, "theories"), os.path.join(d, "theories"))
        files = [l.strip() for l in open(os.path.join(BASE, "_CoqProject")) if l.strip().endswith(".v")]
        tgt = "theories/" + mu["file"]
        p = os.path.join(d, tgt)
        s = open(p).read()
        if s.count(mu["old"]) != 1:
            return mu, {"error": "pattern occurs %d times" % s.count(mu["old"])}
        open(p, "w").write(s.replace(mu["old"], mu["new"]))
        g = deps(d, files)
        dirty, broken, failed, hard, passed = {tgt}, [], [], [], 0
        def closure(f, seen):
            if f not in seen:
                seen.add(f)
                for x in g.get(f, ()):
                    closure(x, seen)
            return seen
        props = ["theories/" + x for x in mu["props"]] if "props" in mu else \
                [f for f in files if f.startswith("theories/Prop_") and tgt in closure(f, set())][:1]
        need = set()
        for f in props:
            closure(f, need)
        order = []
        def visit(f):
            if f not in order:
                for x in sorted(g.get(f, ()), key=files.index):
                    visit(x)
                order.append(f)
        for f in files:
            visit(f)
        for f in order:
            if f not in need:
                continue
            if f != tgt and not (g.get(f, set()) & dirty):
                continue
            dirty.add(f)
            for _ in range(60):
                rc, out, err, last = coqc(d, f, mu.get("limit", 90))
                if rc == 0:
                    break
                src = open(os.path.join(d, f)).read()
                if rc == 124:
                    pos = last + 2
                else:
                    m = re.search(r'File "[^"]*", line (\d+), characters (\d+)-', err)
                    if not m:
                        hard.append(f + ": " + err[-200:]); break
                    b = src.encode().split(b"\n")
                    pos = len(b"\n".join(b[:int(m.group(1)) - 1]).decode()) + 1 + 0
                    pos = min(pos + int(m.group(2)), len(src) - 1)
                a = admit(src, pos)
                if a is None:
                    hard.append(f + ": " + err.strip()[-300:]); break
                open(os.path.join(d, f), "w").write(a[0])
                broken.append(a[1])
            else:
                hard.append(f + ": too many failures")
            if hard:
                break
            if f.startswith("theories/Prop_"):
                src = open(os.path.join(d, f)).read()
                names = [n for n in re.findall(r"^Print Assumptions ([\w']+)\.", src, re.M)]
                rep = [ln for ln in re.split(r"(?=^Closed under|^Axioms:)", out, flags=re.M) if ln.startswith(("Closed", "Axioms:"))]
                if len(rep) != len(names):
                    hard.append(f + ": assumptions not matched"); break
                failed += [n for n, r in zip(names, rep) if r.startswith("Axioms:")]
                passed += sum(r.startswith("Closed") for r in rep)
                failed += [b for b in broken if re.search(r"^(Theorem|Example) %s\b" % re.escape(b), src, re.M) and b not in failed]
        return mu, {"failed": failed, "broken": broken, "hard": hard, "passed": passed}
    finally:
        shutil.rmtree(d, ignore_errors=True)

def main():
    shutil.rmtree(BASE)
    shutil.copytree(os.path.join(ROOT, "rocq"), BASE)
    mus = json.load(open(sys.argv[1]))
    if len(sys.argv) > 2:
        mus = [m for m in mus if m["id"] in sys.argv[2:]]
    with ThreadPoolExecutor(int(os.environ.get("J", "4"))) as ex:
        for mu, r in ex.map(run, mus):
            line = {"id": mu["id"], "definition": mu["definition"], "edit": mu["edit"], "claim": mu["claim"],
                    "failed": r.get("failed", []), "lemmas_failed": r.get("broken", []), "tightened": mu.get("tightened", [])}
            if r.get("hard"):
                line["does_not_compile"] = r["hard"]
            print(mu["id"], mu["definition"], "|", mu["claim"], "->", r.get("error") or (r["failed"] or ("HARD " + str(r["hard"]) if r["hard"] else "SURVIVED")), flush=True)
            if not r.get("error") and not any("inconsistent assumptions" in x for x in r["hard"]):  # a stale build says nothing
                with open(os.path.join(ROOT, "seeded", "LOG.jsonl"), "a") as o:
                    o.write(json.dumps(line) + "\n")
try:
    main()
finally:
    shutil.rmtree(BASE, ignore_errors=True)
