#!/usr/bin/env python3
"""Like mutate.py, but checks every file on its own against the interfaces (.vos)
of the others, so that a broken proof costs only its file.

usage: mutate_fast.py prepare
       mutate_fast.py MUTANTS.json OUT.jsonl BATCH

`prepare` copies the built tree, makes the interfaces and records, for every
lemma, the lemmas of other files that it rests on.  Then the mutants are seeded
BATCH at a time into a scratch copy; every file is checked, and broken proofs are
replaced by `Admitted`; the files with broken proofs are then checked for each
mutant of the batch alone.  The property theorems that rest on a broken proof,
directly or through others, are the ones that failed.
"""
import concurrent.futures as cf
import json, os, re, shutil, subprocess, sys, time

SRC = os.environ.get("MUT_SRC", "/verif/rocq")
TOP = os.environ.get("MUT_TOP", "/tmp/w/mf")
BASE = TOP + "/base"
JOBS = int(os.environ.get("MUT_JOBS", "4"))
START = re.compile(r"^\s*(?:Local |Global |#\[[^\]]*\] ?)?(Lemma|Theorem|Example|Corollary|Remark|Fact|Instance)\s+([\w']+)", re.M)

def sh(cmd, timeout=7000):
    return subprocess.run(cmd, shell=True, capture_output=True, text=True, timeout=timeout)

def files(d):
    return [l.strip()[9:-2] for l in open(d + "/_CoqProject") if l.strip().endswith(".v")]

def lemmas(text):
    text = re.sub(r"\(\*.*?\*\)", lambda m: " " * len(m.group(0)), text, flags=re.S)
    return [m.group(2) for m in START.finditer(text)]

def check(d, f, limit):
    """Check proofs of file f of tree d; gives ok, position of the error, output."""
    path = f"{d}/theories/{f}.v"
    text = open(path).read()
    plain = text
    names = lemmas(text)
    text = re.sub(r"^Print Assumptions .*\n?", lambda m: " " * (len(m.group(0)) - 1) + "\n", text, flags=re.M)
    body = text + "\nGoal True. idtac \"@@BEGIN\". exact I. Qed.\n" + "".join(
        f"Goal True. idtac \"@@ {n}\". exact I. Qed.\nPrint Assumptions {n}.\n" for n in names)
    open(path, "w").write(body)
    t = time.time()
    try:
        r = subprocess.run(["bash", "-c", f"ulimit -v 7000000; exec timeout {int(limit)} stdbuf -oL coqc -q -time -vok -Q theories Verif theories/{f}.v"],
                           cwd=d, capture_output=True, text=True, errors="replace")
    finally:
        open(path, "w").write(plain)
    dt = time.time() - t
    if r.returncode == 0:
        return True, None, r.stdout, dt
    m = re.search(r'File "\./theories/\w+\.v", line (\d+), characters (\d+)-', r.stderr)
    raw = body.encode()
    if m:
        lines = raw.split(b"\n")
        pos = sum(len(l) + 1 for l in lines[:int(m.group(1)) - 1]) + int(m.group(2))
    else:
        cs = re.findall(r"^Chars (\d+) - (\d+)", r.stdout, re.M)
        pos = int(cs[-1][1]) + 1 if cs else 0
    return False, len(raw[:pos].decode(errors="replace")), r.stderr[-400:], dt

def admit(path, pos):
    s = open(path).read()
    best = None
    for m in START.finditer(s):
        if m.start() <= pos + 1:
            best = m
    if best is None:
        return None
    p = re.compile(r"\bProof\b[^.]*\.").search(s, best.start())
    q = re.compile(r"\b(Qed|Defined)\.").search(s, best.start())
    if not p or not q or q.start() < p.start() or pos > q.end() + 5:
        return None
    s = s[:p.start()] + "Admitted." + s[q.end():]
    open(path, "w").write(s)
    return best.group(2)

def deps_of(out):
    """Output of Print Assumptions for every lemma: name -> set of names."""
    d = {}
    i = out.find("@@BEGIN")
    cur = None
    for line in out[i:].split("\n"):
        if line.startswith("@@ "):
            cur = line[3:].strip(); d[cur] = set()
        elif cur and not line.startswith("Chars") and not line.startswith(" "):
            m = re.match(r"^([\w.']+)(\s|$)", line)
            if m and m.group(1) not in ("Axioms:", "Closed", "Axioms"):
                d[cur].add(m.group(1))
    return d

def prepare():
    shutil.rmtree(TOP, ignore_errors=True); os.makedirs(BASE)
    sh(f"cp -a {SRC}/_CoqProject {BASE}/ && mkdir {BASE}/theories && cp -a {SRC}/theories/*.v {BASE}/theories/")
    r = sh(f"cd {BASE} && coq_makefile -f _CoqProject -o Makefile && make -j{JOBS} vos")
    if r.returncode: sys.exit(r.stdout[-500:] + r.stderr[-2000:])
    print("interfaces", flush=True)
    graph, times = {}, {}
    with cf.ThreadPoolExecutor(JOBS) as ex:
        fut = {ex.submit(check, BASE, f, 2000): f for f in files(BASE)}
        for x in cf.as_completed(fut):
            f = fut[x]; ok, pos, out, dt = x.result()
            print(f, ok, round(dt), flush=True)
            if not ok: print(out)
            graph[f] = {k: sorted(v) for k, v in deps_of(out).items()} if ok else {}
            times[f] = dt
    json.dump({"graph": graph, "times": times}, open(TOP + "/graph.json", "w"))

def dependents(f0):
    """Files that need f0, from the .vos rules of coqdep."""
    dep = {}
    r = sh(f"cd {BASE} && coqdep -Q theories Verif theories/*.v -vos 2>/dev/null || coqdep -vos -Q theories Verif theories/*.v")
    for line in r.stdout.replace("\\\n", " ").split("\n"):
        m = re.match(r"theories/(\w+)\.vos\s[^:]*:(.*)", line)
        if m:
            dep[m.group(1)] = set(re.findall(r"theories/(\w+)\.vos", m.group(2)))
    seen, todo = {f0}, [f0]
    while todo:
        x = todo.pop()
        for k, v in dep.items():
            if x in v and k not in seen:
                seen.add(k); todo.append(k)
    return seen

def seed(d, muts):
    shutil.rmtree(d, ignore_errors=True)
    sh(f"cp -a {BASE} {d}")
    for m in muts:
        path = f"{d}/theories/{m['file']}"
        s = open(path).read()
        if s.count(m["old"]) != 1:
            return f"{m['id']}: old occurs {s.count(m['old'])} times"
        open(path, "w").write(s.replace(m["old"], m["new"]))
    early = []
    for _ in range(30):
        r = sh(f"cd {d} && make -k -j{JOBS} vos COQC='timeout 600 coqc'")
        if r.returncode == 0:
            return early
        errs = re.findall(r'File "\./theories/(\w+)\.v", line (\d+), characters (\d+)-[\d]+:\s*\n?Error', r.stdout + r.stderr)
        done = 0
        for f, l, c in errs:
            p = f"{d}/theories/{f}.v"
            raw = open(p, "rb").read()
            pos = sum(len(x) + 1 for x in raw.split(b"\n")[:int(l) - 1]) + int(c)
            n = admit(p, len(raw[:pos].decode(errors="replace")))
            if n: early.append(f"{f}.{n}"); done += 1
        if not done:
            return "interfaces: " + (r.stdout + r.stderr)[-600:]
    return "interfaces: too many rounds"

def examine(d, fs, times):
    """Holes and, for files with holes, dependencies."""
    def one(f):
        holes, out = [], ""
        for _ in range(60):
            ok, pos, out, dt = check(d, f, 4 * times.get(f, 60) + 120)
            if ok: return holes, deps_of(out), None
            n = admit(f"{d}/theories/{f}.v", pos)
            if n is None: return holes, {}, out
            holes.append(n)
        return holes, {}, "too many rounds"
    res = {}
    with cf.ThreadPoolExecutor(JOBS) as ex:
        for f, r in zip(fs, ex.map(one, fs)): res[f] = r
    return res

def failed(graph, res, holes):
    bad = set(holes)           # File.lemma
    by = {}
    for f in graph:
        for n in graph[f]: by.setdefault(n, set()).add(f"{f}.{n}")
    def hit(f, n):
        parts = n.split("."); last = parts[-1]
        c = {x for x in by.get(last, ()) if len(parts) == 1 or x.split(".")[0] == parts[-2]}
        return c & bad
    changed = True
    while changed:
        changed = False
        for f in graph:
            g = res[f][1] if f in res and res[f][0] else graph[f]
            for n, ds in g.items():
                if f"{f}.{n}" not in bad and any(hit(f, x) for x in ds):
                    bad.add(f"{f}.{n}"); changed = True
    return sorted(x.split(".")[1] for x in bad if x.startswith("Properties") and re.match(r"C\d\d", x.split(".")[1]) and not re.search(r"_case", x))

def main():
    muts = json.load(open(sys.argv[1])); out = sys.argv[2]; k = int(sys.argv[3])
    done = {json.loads(l)["id"] for l in open(out)} if os.path.exists(out) else set()
    muts = [m for m in muts if m["id"] not in done]
    G = json.load(open(TOP + "/graph.json")); graph, times = G["graph"], G["times"]
    order = sorted(graph, key=lambda f: -times.get(f, 0))
    while muts:
        batch, muts = muts[:k], muts[k:]
        d = TOP + "/cur"
        cone = set().union(*[dependents(m["file"][:-2]) for m in batch])
        e = seed(d, batch)
        t = time.time()
        if isinstance(e, str):
            print("batch", [m["id"] for m in batch], e, flush=True)
            sus = [f for f in order if f in cone]
        else:
            res = examine(d, [f for f in order if f in cone], times)
            sus = [f for f in order if f in res and (res[f][0] or res[f][2])]
            sus += [x.split(".")[0] for x in e if x.split(".")[0] not in sus]
            print("batch", [m["id"] for m in batch], "suspects", sus, round(time.time() - t), flush=True)
        for m in batch:
            if len(batch) == 1 and not isinstance(e, str):
                r1, e1 = res, e
            else:
                e1 = seed(d, [m])
                r1 = examine(d, [f for f in sus if f in cone], times) if not isinstance(e1, str) else {}
            rec = dict(m)
            if isinstance(e1, str):
                rec["error"] = e1
            else:
                holes = [f"{f}.{n}" for f in r1 for n in r1[f][0]] + e1
                rec["holes"] = holes
                err = {f: r1[f][2] for f in r1 if r1[f][2]}
                if err: rec["error"] = err
                rec["failed"] = failed(graph, r1, holes)
            open(out, "a").write(json.dumps(rec) + "\n")
            print(m["id"], rec.get("error", ""), len(rec.get("holes", [])), rec.get("failed"), flush=True)

if __name__ == "__main__":
    if sys.argv[1] == "prepare": prepare()
    else: main()
