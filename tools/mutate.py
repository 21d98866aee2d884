#!/usr/bin/env python3
"""Run seeded wrong programs against the theorems.

Every mutant is a textual edit of a model file, made in a scratch copy outside the
repository.  A lemma whose proof breaks is replaced by a hole (an axiom of its own) and the
build goes on, so that at the end Print Assumptions tells which property theorems depend on
a broken lemma.  One JSON line per mutant is appended to seeded/LOG.jsonl.

usage: mutate.py mutants.py [name ...]
"""
import json, os, re, subprocess, sys, shutil, time
HERE = os.path.dirname(os.path.abspath(__file__))
ROCQ = os.path.join(HERE, "..", "rocq")
WORK = os.environ.get("MUTWORK", "/tmp/mutwork")
JOBS = os.environ.get("MUTJOBS", "3")
LOG = os.path.join(HERE, "..", "seeded", "LOG.jsonl")
TIMEOUT = 120
STMT = re.compile(r"^\s*(?:Lemma|Theorem|Example|Corollary|Remark|Fact|Instance|#\[\w+\] Instance)\s+(\w+)", re.M)

def sh(cmd, **k):
    return subprocess.run(cmd, shell=True, stdout=subprocess.PIPE, stderr=subprocess.STDOUT, text=True, **k)

def baseline():
    """A scratch tree, built once with suggestions of 'Proof using'."""
    base = WORK + "/base"
    if os.path.exists(base + "/ok"):
        return base
    shutil.rmtree(WORK, ignore_errors=True)
    os.makedirs(base)
    sh(f"cp -r {ROCQ}/theories {ROCQ}/_CoqProject {base}/; rm -f {base}/theories/*.vo* {base}/theories/*.glob {base}/theories/.*.aux")
    using = {}
    for f in os.listdir(base + "/theories"):
        if f.endswith(".v"):
            p = f"{base}/theories/{f}"
            s = open(p).read()
            open(p, "w").write("Set Suggest Proof Using. Set Default Timeout %d.\n" % TIMEOUT + s)
    sh(f"cd {base} && coq_makefile -f _CoqProject -o Makefile")
    r = sh(f"cd {base} && make -k -j4 2>&1")
    for m in re.finditer(r"The proof of (\w+)\s+should start with one of the following commands:\s*\n\s*Proof using([^.]*)\.", r.stdout):
        using[m.group(1)] = m.group(2).strip()
    assert "Error" not in r.stdout, r.stdout[-3000:]
    json.dump(using, open(base + "/using.json", "w"))
    open(base + "/ok", "w").write("")
    return base

def enclosing(src, line):
    """The statement that contains the line: (name, start, proof start, end)."""
    off = sum(len(l) + 1 for l in src.split("\n")[:line - 1])
    best = None
    for m in STMT.finditer(src):
        if m.start() <= off + 400 and src[:m.start()].count("\n") + 1 <= line:
            best = m
    if not best:
        return None
    p = re.compile(r"\bProof\b[^.]*\.").search(src, best.end())
    q = re.compile(r"\b(Qed|Defined)\.").search(src, p.end())
    return best.group(1), best.start(), p.start(), q.end()

def props_results(d):
    """Theorem -> holes it depends on."""
    out = {}
    for f in sorted(os.listdir(d + "/theories")):
        if not f.endswith("Props.v"):
            continue
        names = re.findall(r"^Print Assumptions (\w+)\.", open(f"{d}/theories/{f}").read(), re.M)
        if not os.path.exists(f"{d}/theories/{f}o"):
            for n in names: out[n] = ["not built"]
            continue
        r = sh(f"cd {d}/theories && coqc -q -Q . Verif {f}")
        chunks = re.split(r"(?=^Closed under the global context|^Axioms:)", r.stdout, flags=re.M)
        chunks = [c for c in chunks if c.startswith(("Closed", "Axioms"))]
        assert len(chunks) == len(names), (f, len(chunks), len(names), r.stdout[-500:])
        for n, c in zip(names, chunks):
            h = sorted(set(re.findall(r"(?:\w+\.)?hole_(\w+)", c)))
            if h: out[n] = h
    return out

def run(m):
    base = baseline()
    d = WORK + "/m"
    shutil.rmtree(d, ignore_errors=True)
    sh(f"cp -a {base} {d}")
    using = json.load(open(base + "/using.json"))
    p = f"{d}/theories/{m['file']}"
    s = open(p).read()
    assert s.count(m["old"]) == m.get("count", 1), (m["name"], s.count(m["old"]))
    s = s.replace(m["old"], m["new"])
    open(p, "w").write(s)
    broken, examples = [], []
    t0 = time.time()
    while True:
        r = sh(f"cd {d} && make -k -j{JOBS} 2>&1")
        errs = re.findall(r'File "\./theories/(\w+\.v)", line (\d+), characters [^\n]*:\nError', r.stdout)
        if not errs:
            if "Error" in r.stdout or "***" in r.stdout:
                return {"result": "build failed", "out": r.stdout[-1500:]}
            break
        for f, line in errs:
            q = f"{d}/theories/{f}"
            src = open(q).read()
            e = enclosing(src, int(line))
            if e is None or f.endswith("Model.v") or f.endswith("Spec.v") and e is None:
                return {"result": "model does not compile", "out": r.stdout[-1500:]}
            name, a, b, c = e
            if "hole_" in src[b:c]:
                return {"result": "statement does not compile: " + name, "out": r.stdout[-1500:]}
            u = f" using {using[name]}" if using.get(name) else ""
            hole = f"Axiom hole_{name} : forall P : Prop, P.\n"
            line0 = src.rfind("\n", 0, a) + 1
            # inside a section an axiom is fine too
            src = src[:line0] + hole + src[line0:b] + f"Proof{u}. exact (hole_{name} _). Qed." + src[c:]
            open(q, "w").write(src)
            (examples if re.match(r"\s*Example", src[line0 + len(hole):]) else broken).append(name)
        if len(broken) + len(examples) > 150 or time.time() - t0 > 3600:
            return {"result": "too many broken lemmas", "broken": broken, "examples": examples}
    res = props_results(d)
    return {"result": "killed" if res else "survived", "theorems": sorted(res), "broken": broken, "examples": examples, "secs": round(time.time() - t0)}

def main():
    ns = {}
    exec(open(sys.argv[1]).read(), ns)
    only = sys.argv[2:]
    done = set()
    if os.path.exists(LOG):
        for l in open(LOG):
            done.add(json.loads(l)["name"])
    for m in ns["M"]:
        if only and m["name"] not in only: continue
        if not only and m["name"] in done: continue
        try:
            r = run(m)
        except AssertionError as e:
            r = {"result": "assertion", "out": str(e)}
        line = {"name": m["name"], "definition": m["definition"], "file": m["file"], "edit": {"old": m["old"], "new": m["new"]},
                "breaks": m["breaks"], "result": r["result"], "theorems_failed": r.get("theorems", []),
                "lemmas_failed": r.get("broken", []), "examples_failed": r.get("examples", []), "theorems_tightened": m.get("tightened", [])}
        if r["result"] in ("killed", "survived"):
            open(LOG, "a").write(json.dumps(line) + "\n")
        print(m["name"], r["result"], len(r.get("theorems", [])), r.get("theorems", [])[:8], r.get("secs"), r.get("out", "")[-700:], flush=True)

main()
