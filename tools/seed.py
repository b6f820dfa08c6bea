#!/usr/bin/env python3
"""Try one wrong program.

usage: seed.py BASE WORK MUTANTS ID...

BASE is a built copy of /verif/rocq (Print Assumptions lines removed), WORK a
scratch directory.  MUTANTS is a JSON-lines file of edits: id, file, definition,
old, new, claim, breaks.  The edit is applied in WORK; the statements of all
theories are compiled (coqc -vos) and then the proofs of every theory that can be
affected are checked (coqc -vok).  A proof that no longer checks is replaced by
Admitted (in WORK only) so that the rest of its file can be checked too; the
theorems reported as failing are those that were replaced or use a replaced one,
according to the .glob files of BASE.
"""
import json, os, re, shutil, subprocess, sys

base, work, mutants = sys.argv[1:4]
ids = sys.argv[4:]
LIMIT = 200

def sh(cmd, timeout=3000):
    p = subprocess.run(cmd, shell=True, capture_output=True, text=True, timeout=timeout)
    return p.stdout + p.stderr

START = re.compile(r"^(?:Local |Global |#\[\w+\] )?(Lemma|Theorem|Example|Corollary|Fact|Remark)\s+(\w+)", re.M)

def admit(path, pos):
    s = open(path).read()
    b = None
    for m in START.finditer(s):
        if m.start() <= pos:
            b = m
        else:
            break
    if b is None:
        return None
    m = re.compile(r"\bProof\b.*?\bQed\.", re.S).search(s, b.start())
    if m is None or m.end() < pos - 2:
        return None
    s = s[:m.start()] + "Proof. Admitted." + s[m.end():]
    open(path, "w").write(s)
    return b.group(2)

def locate(path, line, col):
    s = open(path).read().encode()
    off = 0
    for i, l in enumerate(s.split(b"\n"), 1):
        if i == line:
            break
        off += len(l) + 1
    return len(s[:off + col].decode(errors="ignore"))

def slow_sentence(path):
    out = sh(f"cd {work} && timeout {LIMIT} stdbuf -o0 coqc -vok -time -Q theories Verif {path}")
    ends = [int(m.group(1)) for m in re.finditer(r"^Chars \d+ - (\d+) ", out, re.M)]
    end = ends[-1] if ends else 0
    return len(open(os.path.join(work, path)).read().encode()[:end].decode(errors="ignore")) + 1

def graph():
    """name -> names it mentions, for everything in BASE."""
    uses = {}
    for f in sorted(os.listdir(os.path.join(base, "theories"))):
        if not f.endswith(".glob"):
            continue
        mod = f[:-5]
        defs, refs = [], []
        for l in open(os.path.join(base, "theories", f)):
            m = re.match(r"R(\d+):\d+ Verif\.(\w+) (\S+) (\S+) (\w+)", l)
            if m:
                refs.append((int(m.group(1)), m.group(2) + "." + m.group(4)))
                continue
            m = re.match(r"(prf|thm|def|ind|rec|proj|constr|lem|fix|inst|ax|var|variable) (\d+):\d+ (\S+) (\S+)", l)
            if m:
                defs.append((int(m.group(2)), mod + "." + m.group(4)))
        defs.sort()
        refs.sort()
        i = -1
        for pos, name in refs:
            while i + 1 < len(defs) and defs[i + 1][0] <= pos:
                i += 1
            if i >= 0:
                uses.setdefault(defs[i][1], set()).add(name)
        for _, d in defs:
            uses.setdefault(d, set())
    return uses

USES = graph()
THEOREMS = {n for n in USES if re.match(r"Prop\w+\.C\d+_", n) and not n.endswith("_case")}

def dependents(names):
    back = {}
    for a, bs in USES.items():
        for b in bs:
            back.setdefault(b, set()).add(a)
    todo, seen = list(names), set(names)
    while todo:
        for a in back.get(todo.pop(), ()):
            if a not in seen:
                seen.add(a)
                todo.append(a)
    return seen

def imports(f):
    s = open(os.path.join(work, "theories", f)).read()
    return [w for m in re.finditer(r"From Verif Require (?:Import |Export )?([^.]*)\.", s) for w in m.group(1).split()]

def run(mut):
    if os.path.exists(work):
        shutil.rmtree(work)
    sh(f"cp -a {base} {work}")
    path = os.path.join(work, "theories", mut["file"])
    s = open(path).read()
    if s.count(mut["old"]) != 1:
        return {"id": mut["id"], "error": "old text found %d times" % s.count(mut["old"])}
    open(path, "w").write(s.replace(mut["old"], mut["new"]))
    files = [l.strip()[9:] for l in open(os.path.join(work, "_CoqProject")) if l.startswith("theories/")]
    need = {f: imports(f) for f in files}
    affected = [mut["file"]]
    for f in files:
        if f not in affected and any(i + ".v" in affected for i in need[f]):
            affected.append(f)
    admitted = []
    for _ in range(20):
        out = sh(f"cd {work} && ulimit -v 6000000; make -k -j2 vos TIMER='timeout {LIMIT}' 2>&1")
        # proofs inside sections are checked even by -vos
        m = re.search(r'File "\./theories/(\w+)\.v", line (\d+), characters (\d+)-\d+:\s*\nError', out)
        if not m:
            break
        full = os.path.join(work, "theories", m.group(1) + ".v")
        name = admit(full, locate(full, int(m.group(2)), int(m.group(3))))
        if name is None:
            break
        admitted.append(m.group(1) + "." + name)
    if "***" in out:
        return {"id": mut["id"], "error": "statements", "out": out[-800:]}
    for f in affected:
        f = "theories/" + f
        full = os.path.join(work, f)
        for _ in range(80):
            out = sh(f"cd {work} && ulimit -v 6000000; timeout {LIMIT} coqc -vok -q -w none -Q theories Verif {f} 2>&1; echo EXIT $?")
            if out.strip().endswith("EXIT 0"):
                break
            m = re.search(r'File "\./theories/\w+\.v", line (\d+), characters (\d+)-\d+:\s*\nError', out)
            pos = locate(full, int(m.group(1)), int(m.group(2))) if m else slow_sentence(f)
            name = admit(full, pos)
            if name is None:
                return {"id": mut["id"], "error": "cannot admit", "file": f, "out": out[-600:], "admitted": admitted}
            admitted.append(os.path.basename(f)[:-2] + "." + name)
        else:
            return {"id": mut["id"], "error": "no fixpoint", "admitted": admitted}
    failing = sorted(n.split(".")[1] for n in dependents(admitted) & THEOREMS)
    own = sorted(n.split(".")[1] for n in set(admitted) & THEOREMS)
    return {"id": mut["id"], "admitted": admitted, "failing": failing, "own": own}

muts = {m["id"]: m for m in map(json.loads, filter(str.strip, open(mutants)))}
for i in ids or list(muts):
    r = run(muts[i])
    r["breaks"] = muts[i].get("breaks", [])
    r["missed"] = [c for c in r["breaks"] if not any(t.startswith(c + "_") for t in r.get("failing", []))]
    print(json.dumps(r), flush=True)
