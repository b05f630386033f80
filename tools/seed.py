#!/usr/bin/env python3
"""Seeded-bug runner.

Usage: seed.py WORKER-DIR MUTANTS.json RESULTS.jsonl [first] [step]

Each mutant is {"id","file","definition","old","new","edit","claim","expect":[...]}.
The runner copies the compiled development to WORKER-DIR, applies one textual edit to a
model file, and recompiles the modules that depend on it in order.  A proof that fails
(or exceeds the time limit) is replaced by Admitted *in the scratch copy only* and the
compilation goes on.  The property theorems that rest on a failed lemma are found in the
dependency graph read from the .glob files of the unedited development.  The run stops as
soon as every expected claim has lost a theorem; "survive" lists theorems of the claim
that were recompiled or do not depend on a failed lemma.
"""
import json, os, re, shutil, subprocess, sys

SRC = os.environ.get("SEED_BASE", "/tmp/seed/base")
LIMIT = int(os.environ.get("SEED_LIMIT", "300"))


def order(d):
    return [os.path.basename(l.strip())[:-2] for l in open(os.path.join(d, "_CoqProject"))
            if l.strip().endswith(".v")]


def deps(path):
    out = set()
    for m in re.finditer(r"From Verif Require(?: Import)?\s([^.]*)\.", open(path).read()):
        out |= set(m.group(1).split())
    return out


def graph(d):
    """dependents: name -> set of names whose statement or proof mentions it"""
    g = {}
    for mod in order(d):
        defs, refs = [], []
        for l in open(os.path.join(d, "theories", mod + ".glob")):
            m = re.match(r"^(prf|thm|def|fix|ind|rec|constr|proj|scheme|coe|not|inst|abbrev|ax|variant|syndef|var|sec|binder)\s+(\d+):(\d+) (\S+) (\S+)", l)
            if m:
                if m.group(1) in ("prf", "thm", "def", "fix", "ind", "rec", "scheme", "variant"):
                    defs.append((int(m.group(2)), mod + "." + m.group(5)))
                continue
            m = re.match(r"^R(\d+):(\d+) Verif\.(\w+) (\S+) (\S+) (\w+)", l)
            if m:
                refs.append((int(m.group(1)), m.group(3) + "." + m.group(5)))
        defs.sort()
        starts = [x[0] for x in defs]
        import bisect
        for pos, name in refs:
            i = bisect.bisect_right(starts, pos) - 1
            if i >= 0 and defs[i][1] != name:
                g.setdefault(name, set()).add(defs[i][1])
    return g


def dependents(g, names):
    seen, todo = set(names), list(names)
    while todo:
        for y in g.get(todo.pop(), ()):
            if y not in seen:
                seen.add(y)
                todo.append(y)
    return seen


HEAD = re.compile(r"^\s*(?:Local |Global )?(Lemma|Theorem|Example|Corollary|Fact|Remark|Instance|Definition|Fixpoint)\s+(\w+)", re.M)


def admit_at(path, pos):
    """Replace by Admitted the proof containing character offset pos; return its name."""
    s = open(path).read()
    heads = [m for m in HEAD.finditer(s) if m.start() <= pos]
    if not heads:
        return None
    h = heads[-1]
    p = re.compile(r"\bProof\b[^.]*\.").search(s, h.end())
    q = re.compile(r"\b(Qed|Defined)\.").search(s, h.end())
    nxt = HEAD.search(s, h.end())
    if not p or not q or (nxt and nxt.start() < p.start()) or pos > q.end():
        return None
    if h.group(1) in ("Definition", "Fixpoint") and q.group(1) == "Defined":
        return None
    body = s[p.start():q.end()]
    pad = "\n" * body.count("\n")
    s = s[:p.start()] + "Proof. Admitted." + pad + s[q.end():]
    open(path, "w").write(s)
    return h.group(2)


def compile_one(d, mod):
    """returns (ok, position or None, message)"""
    f = "theories/%s.v" % mod
    log = os.path.join(d, "time.log")
    src = open(os.path.join(d, f)).read()
    # Print Assumptions is not needed here and costs time
    slim = re.sub(r"^Print Assumptions \w+\.", lambda m: " " * len(m.group(0)), src, flags=re.M)
    open(os.path.join(d, f), "w").write(slim)
    with open(log, "wb") as fh:
        r = subprocess.run("ulimit -v 6000000; exec timeout %d coqc -q -time -Q theories Verif %s" % (LIMIT, f),
                           shell=True, cwd=d, stdout=fh, stderr=subprocess.STDOUT, executable="/bin/bash")
    out = open(log, "rb").read().decode("utf8", "replace")
    if r.returncode == 0:
        return True, None, ""
    m = None
    for m in re.finditer(r'File "[^"]*", line (\d+), characters (\d+)-(\d+):\s*\nError', out):
        pass
    if m:
        lines = slim.split("\n")
        pos = sum(len(l) + 1 for l in lines[:int(m.group(1)) - 1]) + int(m.group(2))
        return False, pos, out[m.start():m.start() + 400]
    m = None
    for m in re.finditer(r"^Chars (\d+) - (\d+) ", out, re.M):
        pass
    bytepos = int(m.group(2)) + 2 if m else 0
    pos = len(slim.encode("utf8")[:bytepos].decode("utf8", "replace"))
    return False, pos, "no result within the limit"


def run(d, mu, g):
    if os.path.exists(d):
        shutil.rmtree(d)
    shutil.copytree(SRC, d)
    th = os.path.join(d, "theories")
    f = os.path.join(th, mu["file"])
    s = open(f).read()
    if s.count(mu["old"]) != 1:
        return {"id": mu["id"], "error": "old text occurs %d times" % s.count(mu["old"])}
    open(f, "w").write(s.replace(mu["old"], mu["new"]))
    mod0 = mu["file"][:-2]
    theorems = []
    for mod in order(d):
        if mod.startswith("Properties"):
            theorems += [mod + "." + t for t in re.findall(r"^Theorem (C\d+_\w+)", open(os.path.join(th, mod + ".v")).read(), re.M)]
    want = set(mu["expect"]) or {mu["claim"]}
    dirty, failed, broken = {mod0}, [], []
    complete = True
    for mod in order(d):
        path = os.path.join(th, mod + ".v")
        if mod != mod0 and not (deps(path) & dirty):
            continue
        dirty.add(mod)
        for _ in range(80):
            ok, pos, msg = compile_one(d, mod)
            if ok:
                break
            name = admit_at(path, pos)
            if name is None:
                if failed:
                    complete = False
                    break
                return {"id": mu["id"], "error": "%s: cannot continue: %s" % (mod, msg), "failed": failed}
            failed.append("%s.%s" % (mod, name))
        dep = dependents(g, failed) if failed else set()
        broken = [t for t in theorems if t in dep]
        hit = {t.split(".")[1].split("_")[0] for t in broken}
        if want <= hit or not complete:
            break
    claim = mu["claim"]
    return {"id": mu["id"], "failed": failed, "broken": [t.split(".")[1] for t in broken],
            "claim_survive": [t.split(".")[1] for t in theorems if t not in broken and t.split(".")[1].startswith(claim + "_")],
            "hit": sorted({t.split(".")[1].split("_")[0] for t in broken})}


def main():
    d, ms, rs = sys.argv[1:4]
    first = int(sys.argv[4]) if len(sys.argv) > 4 else 0
    step = int(sys.argv[5]) if len(sys.argv) > 5 else 1
    done = set()
    if os.path.exists(rs):
        done = {json.loads(l)["id"] for l in open(rs)}
    g = graph(SRC)
    for mu in json.load(open(ms))[first::step]:
        if mu["id"] in done:
            continue
        r = run(d, mu, g)
        with open(rs, "a") as fh:
            fh.write(json.dumps(r) + "\n")
        print(r["id"], mu["claim"], r.get("error") or ("%s; %d theorems broken %s; claim survivors %s" % (
            r["failed"][:4], len(r["broken"]), " ".join(r["hit"]), r["claim_survive"])), flush=True)


if __name__ == "__main__":
    main()
