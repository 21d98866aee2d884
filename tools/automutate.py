#!/usr/bin/env python3
"""Many small wrong programs: edits of the definitions in the model files, chosen by a script.

Each edit is made in a scratch copy outside the repository, where the examples have been
removed, and the files are rebuilt until the first proof fails.  The mutant is killed if a
property theorem depends on the statement that fails (dependencies are read from the .glob
files).  One JSON line per mutant is appended to seeded/LOG.jsonl.

usage: automutate.py per_definition workers [file ...]     edits chosen by the script
       automutate.py --state per_definition workers [file ...]  stale values, skipped calls, lost results
       automutate.py --field per_definition workers [file ...]  another field, constructor or function of the same type
       automutate.py --list mutants.py workers             the edits of mutants.py not in the log
       automutate.py --retry mutants.py workers            the edits in the log that survived
"""
import json, os, re, subprocess, sys, shutil, time, random, threading, queue
HERE = os.path.dirname(os.path.abspath(__file__))
ROCQ = os.path.join(HERE, "..", "rocq")
WORK = os.environ.get("AUTOWORK", "/tmp/automut")
LOG = os.path.join(HERE, "..", "seeded", "LOG.jsonl")
STMT = re.compile(r"^\s*(Lemma|Theorem|Example|Corollary|Remark|Fact|Instance|#\[\w+\] Instance)\s+(\w+)", re.M)
def sh(cmd):
    return subprocess.run(cmd, shell=True, stdout=subprocess.PIPE, stderr=subprocess.STDOUT, text=True)

def baseline():
    base = WORK + "/base"
    if os.path.exists(base + "/ok"): return base
    shutil.rmtree(WORK, ignore_errors=True); os.makedirs(base)
    sh(f"cp -r {ROCQ}/theories {ROCQ}/_CoqProject {base}/; rm -f {base}/theories/*.vo* {base}/theories/*.glob {base}/theories/.*.aux")
    files = [f for f in os.listdir(base + "/theories") if f.endswith(".v")]
    src = {f: open(f"{base}/theories/{f}").read() for f in files}
    words = {}
    for s in src.values():
        for w in re.findall(r"\w+", s): words[w] = words.get(w, 0) + 1
    ex = re.compile(r"^Example (\w+)\b.*?\b(?:Qed|Defined)\.[^\n]*\n", re.M | re.S)
    for f in files:
        s = ex.sub(lambda m: "" if words[m.group(1)] == 1 else m.group(0), src[f])
        open(f"{base}/theories/{f}", "w").write("Set Default Timeout 120.\n" + s)
    sh(f"cd {base} && coq_makefile -f _CoqProject -o Makefile")
    r = sh(f"cd {base} && make -j4 2>&1")
    assert "Error" not in r.stdout, r.stdout[-3000:]
    open(base + "/ok", "w").write("")
    return base

def graph(base):
    """statement -> statements and definitions whose text mentions it"""
    users = {}
    for f in os.listdir(base + "/theories"):
        if not f.endswith(".glob"): continue
        mod = f[:-5]
        defs, refs = [], []
        for l in open(f"{base}/theories/{f}"):
            m = re.match(r"(\w+) (\d+):\d+ \S+ (\S+)$", l)
            if m and m.group(1) in ("prf", "def", "ind", "rec", "thm", "inst", "scheme", "constr", "proj"):
                defs.append((int(m.group(2)), m.group(3))); continue
            m = re.match(r"R(\d+):\d+ Verif\.(\w+) \S+ (\S+) (\w+)$", l)
            if m and m.group(4) in ("def", "thm", "prf", "inst"): refs.append((int(m.group(1)), (m.group(2), m.group(3))))
        defs.sort(); refs.sort()
        k = -1
        for pos, tgt in refs:
            while k + 1 < len(defs) and defs[k + 1][0] <= pos: k += 1
            if k >= 0: users.setdefault(tgt, set()).add((mod, defs[k][1]))
    return users

def reach(users, start):
    seen, todo = {start}, [start]
    while todo:
        for y in users.get(todo.pop(), ()):
            if y not in seen: seen.add(y); todo.append(y)
    return sorted(n for (m, n) in seen if m.endswith("Props") and re.match(r"C\d+_", n))

# ---------------------------------------------------------------- edits
def comments(s):
    out, depth, start = [], 0, 0
    i = 0
    while i < len(s):
        if s.startswith("(*", i):
            if depth == 0: start = i
            depth += 1; i += 2
        elif s.startswith("*)", i):
            depth -= 1; i += 2
            if depth == 0: out.append((start, i))
        else: i += 1
    return out

SWAP = [("<?", "<=?"), ("<=?", "<?"), ("+", "-"), ("-", "+"), ("*", "+"), ("/", "*"), ("mod", "/"), ("&&", "||"), ("||", "&&"),
        ("true", "false"), ("false", "true"), ("N.land", "N.lor"), ("N.lor", "N.land"), ("N.shiftl", "N.shiftr"), ("N.shiftr", "N.shiftl"),
        ("uadd", "usub"), ("usub", "uadd"), ("umul", "uadd"), ("radd", "rsub"), ("rsub", "radd"), ("rmul", "radd"), ("ushl", "ushr"), ("ushr", "ushl"),
        ("rshl", "rshr"), ("rshr", "rshl"), ("firstn", "skipn"), ("skipn", "firstn"), ("N.min", "N.max"), ("N.max", "N.min"), ("Nat.min", "Nat.max"),
        ("Nat.max", "Nat.min"), ("from_le_bytes", "from_be_bytes"), ("from_be_bytes", "from_le_bytes"),
        ("checked_shl0", "checked_shr0"), ("checked_shr0", "checked_shl0"), ("negb", "id"), ("fst", "snd"), ("snd", "fst"), ("wrapping_sub", "N.add"),
        ("Panic", "UB"), ("madd", "msub"), ("msub", "madd"), ("mmul", "madd"), ("mshl", "mshr"), ("mshr", "mshl"), ("UB", "Panic"), ("rev", "id"), ("=?", "<=?"), ("existsb", "forallb"), ("forallb", "existsb")]
KW = {"in", "then", "else", "with", "match", "if", "let", "end", "fun", "as", "return", "forall", "is"}
def edits(body):
    """(offset, length, replacement) inside the body of a definition"""
    out = []
    cm = comments(body)
    inside = lambda p: any(a <= p < b for a, b in cm)
    strs = [(m.start(), m.end()) for m in re.finditer(r'"[^"]*"', body)]
    instr = lambda p: any(a <= p < b for a, b in strs)
    for m in re.finditer(r"(?<![\w'.^])\d+(?![\w'])", body):
        if inside(m.start()) or instr(m.start()): continue
        n = int(m.group(0))
        out.append((m.start(), len(m.group(0)), str(n + 1)))
        if n: out.append((m.start(), len(m.group(0)), str(n - 1)))
    for a, b in SWAP:
        if re.match(r"\w", a): rx = r"(?<![\w'.])" + re.escape(a) + r"(?![\w'.])"
        else: rx = r"(?<= )" + re.escape(a) + r"(?= )"
        for m in re.finditer(rx, body):
            if not inside(m.start()) and not instr(m.start()): out.append((m.start(), len(a), b))
    for a, b in strs:
        if b - a > 2 and not inside(a): out.append((a, b - a, body[a:b - 2] + ("x" if body[b - 2] != "x" else "y") + '"'))
    for m in re.finditer(r"\bif ((?:(?!\bif\b|\bthen\b).)*?) then\b", body, re.S):
        if not inside(m.start()) and ":" not in m.group(1): out.append((m.start(), len(m.group(0)), f"if negb ({m.group(1)}) then"))
    # exchange the results of short conditionals
    for m in re.finditer(r"\bthen (\w+(?: \w+)?|\([^()]*\))\s+else (\w+(?: \w+)?|\([^()]*\))(?=[\s.])", body):
        if not inside(m.start()): out.append((m.start(), len(m.group(0)), f"then {m.group(2)} else {m.group(1)}"))
    # drop or exchange elements of lists
    for m in re.finditer(r"\[([^\[\];]+); ([^\[\];]+)", body):
        if not inside(m.start()): out.append((m.start(), len(m.group(0)), f"[{m.group(2)}; {m.group(1)}"))
    for m in re.finditer(r"; ([^\[\];]+)\]", body):
        if not inside(m.start()): out.append((m.start(), len(m.group(0)), "]"))
    # a field of a record exchanged with its neighbour
    for m in re.finditer(r"\((\w+ \w+)\) \((\w+ \w+)\)", body):
        if not inside(m.start()) and m.group(1) != m.group(2): out.append((m.start(), len(m.group(0)), f"({m.group(2)}) ({m.group(1)})"))
    # arguments of a function exchanged
    for m in re.finditer(r"(?<=[\w)] )([a-z]\w*) ([a-z]\w*)(?=[ )\n.])", body):
        if not inside(m.start()) and not instr(m.start()) and m.group(1) != m.group(2) and not {m.group(1), m.group(2)} & KW:
            out.append((m.start(), len(m.group(0)), f"{m.group(2)} {m.group(1)}"))
    return sorted(set(out))

def state_edits(body):
    """the same for stale values, skipped calls and lost results"""
    out = []
    cm = comments(body)
    strs = [(m.start(), m.end()) for m in re.finditer(r'"[^"]*"', body)]
    free = lambda p: not any(a <= p < b for a, b in cm + strs)
    names = set(re.findall(r"[a-z]\w*'*", body))
    # an older version of a variable
    for m in re.finditer(r"(?<![\w'.])([a-z]\w*?)(\d?)('*)(?![\w'])", body):
        if not free(m.start()) or m.group(0) in KW: continue
        b, d, q = m.groups()
        old = []
        if q: old.append(b + d + q[1:])
        elif d: old += [b, b + "0"] if d in "01" else [b + str(int(d) - 1)]
        before = body[:m.start()]
        # binders are not uses
        if re.search(r"(?:let!? |fun |'\(|, |\()$", before[-8:]) and re.match(r"[\w', )]*(?::=|=>|:)", body[m.end():m.end() + 40]): continue
        for o in old:
            if o in names and o != m.group(0): out.append((m.start(), len(m.group(0)), o))
    # a call that is not made
    for m in re.finditer(r"let! (\w+'?) := ([^()\n]*?)(\w+'?) in\b", body):
        if free(m.start()): out.append((m.start(), len(m.group(0)), f"let {m.group(1)} := {m.group(3)} in"))
    # lengths off by one
    for m in re.finditer(r"(?<![\w'.])length (\w+'?|\([^()]*\))", body):
        if free(m.start()): out.append((m.start(), len(m.group(0)), f"(1 + length {m.group(1)})%nat"))
    # lost or exchanged results
    for m in re.finditer(r"(?<![\w'.])Some (\w+'?|\([^()]*\))(?!\s*=>)", body):
        if free(m.start()): out.append((m.start(), len(m.group(0)), "None"))
    for m in re.finditer(r"(\w+'?|\([^()]*\)) \+\+ (\w+'?|\([^()]*\)|\[[^\[\]]*\])", body):
        if free(m.start()):
            out.append((m.start(), len(m.group(0)), f"{m.group(2)} ++ {m.group(1)}")); out.append((m.start(), len(m.group(0)), m.group(1)))
            out.append((m.start(), len(m.group(0)), m.group(2)))
    return sorted(set(out))

ALIKE = {}
def read_alike(base):
    """fields of a record, constructors of a type and functions of a file that have the same type"""
    def group(names):
        for a in names:
            ALIKE.setdefault(a, set()).update(b for b in names if b != a)
    for f in sorted(os.listdir(base + "/theories")):
        if not f.endswith("Model.v") and f != "Base.v": continue
        s = open(f"{base}/theories/{f}").read()
        for a, b in reversed(comments(s)): s = s[:a] + s[b:]
        by = {}
        for m in re.finditer(r"^Record (\w+)[^{]*\{(.*?)\}\.", s, re.M | re.S):
            for x in m.group(2).split(";"):
                if ":" in x:
                    n, t = x.split(":", 1); by.setdefault(("field", m.group(1), " ".join(t.split())), []).append(n.strip())
        for m in re.finditer(r"^Inductive (\w+)[^:]*:\s*Type\s*:=(.*?)\.\s", s, re.M | re.S):
            for x in m.group(2).split("|"):
                w = x.split(None, 1)
                if w: by.setdefault(("constructor", m.group(1), " ".join(re.findall(r": ([^()]*)\)", w[1])) if len(w) > 1 else ""), []).append(w[0])
        for m in re.finditer(r"^Definition (\w+)((?:(?!:=).)*?):=", s, re.M | re.S):
            t = re.sub(r"(\w+'?) (?=[^():]*: )", "_ ", " ".join(m.group(2).split()))
            if len(t) > 6: by.setdefault(("function", f, t), []).append(m.group(1))
        for names in by.values(): group(names[:12])

def field_edits(body):
    """the same for names exchanged with others of the same type"""
    cm = comments(body)
    strs = [(m.start(), m.end()) for m in re.finditer(r'"[^"]*"', body)]
    free = lambda p: not any(a <= p < b for a, b in cm + strs)
    out = []
    for m in re.finditer(r"(?<![\w'.])[A-Za-z_]\w*'*", body):
        if free(m.start()): out += [(m.start(), len(m.group(0)), r) for r in sorted(ALIKE.get(m.group(0), ()))]
    return out

def definitions(s):
    """(name, body start, end) of the definitions of a model file"""
    cm = comments(s)
    dot = re.compile(r"\.(?=\s|$)")
    out = []
    for m in re.finditer(r"^(?:Definition|Fixpoint)\s+(\w+)", s, re.M):
        if any(a <= m.start() < b for a, b in cm): continue
        e = dot.search(s, m.end())
        while any(a <= e.start() < b for a, b in cm): e = dot.search(s, e.end())
        b = s.find(":=", m.end(), e.end())
        if b > 0: out.append((m.group(1), b + 2, e.start() + 1))
    return out

def choose(base, per, only, edits=edits, kind="auto"):
    jobs = []
    for f in sorted(os.listdir(base + "/theories")):
        if not f.endswith("Model.v") or (only and f not in only): continue
        s = open(f"{base}/theories/{f}").read()
        for name, b, e in definitions(s):
            es = edits(s[b:e])
            random.Random(f + name).shuffle(es)
            for k, (o, n, r) in enumerate(es[:per]):
                jobs.append(dict(name=f"{kind}-{f[:-7]}-{name}-{k + 1}", file=f, definition=name, at=b + o, len=n, new=r,
                                 show=(s[max(b, b + o - 25):b + o], s[b + o:b + o + n], s[b + o + n:min(e, b + o + n + 25)])))
    random.Random(1).shuffle(jobs)
    return jobs

def listed(path):
    ns = {}; exec(open(path).read(), ns)
    return [dict(name=m["name"], file=m["file"], definition=m["definition"], old=m["old"], new=m["new"], count=m.get("count", 1), breaks=m["breaks"]) for m in ns["M"]]

lock = threading.Lock()
def attempt(w, base, users, j):
    d = f"{WORK}/w{w}"
    if not os.path.exists(d): sh(f"cp -a {base} {d}")
    s = open(f"{base}/theories/{j['file']}").read()
    if "at" in j: t = s[:j["at"]] + j["new"] + s[j["at"] + j["len"]:]
    else:
        if s.count(j["old"]) != j["count"]: return {"result": "edit does not apply", "secs": 0}
        t = s.replace(j["old"], j["new"])
    open(f"{d}/theories/{j['file']}", "w").write(t)
    t0 = time.time()
    r = sh(f"cd {d} && make 2>&1")
    res = {}
    e = re.search(r'File "\./theories/(\w+)\.v", line (\d+), characters [^\n]*:\nError', r.stdout)
    if "Error" not in r.stdout and "***" not in r.stdout: res["result"] = "survived"
    elif not e: res.update(result="other", out=r.stdout[-600:])
    else:
        mod, line = e.group(1), int(e.group(2))
        text = open(f"{d}/theories/{mod}.v").read()
        off = sum(len(l) + 1 for l in text.split("\n")[:line - 1])
        st = [m for m in STMT.finditer(text) if text[:m.start(2)].count("\n") + 1 <= line]
        bad = not st or mod.endswith("Model") or re.search(r"^(?:Definition|Fixpoint|Inductive|Record)\b", text[st[-1].end():off + 12], re.M)
        if not bad:
            pr = re.compile(r"\bProof\b").search(text, st[-1].end())
            bad = pr and text[:pr.start()].count("\n") + 1 > line
        if bad: res.update(result="does not compile", out=r.stdout[-300:])
        else:
            th = reach(users, (mod, st[-1].group(2)))
            res.update(result="killed" if th else "unused lemma fails", lemma=f"{mod}.{st[-1].group(2)}", theorems=th)
    res["secs"] = round(time.time() - t0)
    # back to the baseline
    sh(f"cd {d} && cp -p {base}/theories/*.v {base}/theories/*.vo {base}/theories/*.glob {base}/theories/*.vok {base}/theories/*.vos theories/ 2>/dev/null")
    return res

def main():
    base = baseline(); users = graph(base)
    done = set()
    if os.path.exists(LOG): done = {json.loads(l)["name"] for l in open(LOG)}
    if sys.argv[1] == "--retry":
        alive = {json.loads(l)["name"] for l in open(LOG) if json.loads(l)["result"] == "survived"}
        jobs = [j for j in listed(sys.argv[2]) + choose(base, 2, []) if j["name"] in alive]; workers = int(sys.argv[3])
        for j in jobs: j["name"] += "-retry"
    elif sys.argv[1] == "--state": jobs = choose(base, int(sys.argv[2]), sys.argv[4:], state_edits, "state"); workers = int(sys.argv[3])
    elif sys.argv[1] == "--field":
        read_alike(base)
        jobs = choose(base, int(sys.argv[2]), sys.argv[4:], field_edits, "field"); workers = int(sys.argv[3])
    elif sys.argv[1] == "--list": jobs = listed(sys.argv[2]); workers = int(sys.argv[3])
    else: jobs = choose(base, int(sys.argv[1]), sys.argv[3:]); workers = int(sys.argv[2])
    skip = set()
    if os.path.exists(WORK + "/skipped"): skip = set(open(WORK + "/skipped").read().split())
    jobs = [j for j in jobs if j["name"] not in done and j["name"] not in skip]
    print(len(jobs), "mutants", flush=True)
    q = queue.Queue()
    for j in jobs: q.put(j)
    def work(w):
        while True:
            try: j = q.get_nowait()
            except queue.Empty: return
            r = attempt(w, base, users, j)
            edit = {"before": j["show"][0], "old": j["show"][1], "new": j["new"], "after": j["show"][2]} if "at" in j else {"old": j["old"], "new": j["new"]}
            with lock:
                if r["result"] in ("killed", "survived"):
                    line = {"name": j["name"], "definition": j["definition"], "file": j["file"], "edit": edit,
                            "breaks": j.get("breaks", f"what the theorems say about {j['definition']}"), "result": r["result"], "theorems_failed": r.get("theorems", []),
                            "lemmas_failed": [r["lemma"]] if "lemma" in r else [], "examples_failed": [], "theorems_tightened": r.get("theorems", []) if j["name"].endswith("-retry") else []}
                    open(LOG, "a").write(json.dumps(line) + "\n")
                else: open(WORK + "/skipped", "a").write(j["name"] + "\n")
                print(j["name"], r["result"], r["secs"], r.get("lemma", ""), len(r.get("theorems", [])), edit if r["result"] != "killed" else "", r.get("out", "")[-300:], flush=True)
    ts = [threading.Thread(target=work, args=(w,)) for w in range(workers)]
    [t.start() for t in ts]; [t.join() for t in ts]

main()
