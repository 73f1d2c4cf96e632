#!/usr/bin/env python3
"""Seed one wrong program after the other and stop at the first property theorem
(not a refutation or an example) that no longer proves.

usage: mutate_first.py MUTANTS.json OUT.jsonl      (after mutate_fast.py prepare)

Files are checked on their own against the interfaces of the others, the quick
ones first; a broken proof is replaced by `Admitted` and the file is checked
again.  What is reported are the property theorems that rest on the broken proofs
found so far; none means that the wrong program went unnoticed.
"""
import concurrent.futures as cf
import json, os, re, sys, threading, time
import mutate_fast as M

def positive(names):
    return [n for n in names if "refuted" not in n]

def one_mutant(m, graph, times):
    d = M.TOP + "/cur"
    e = M.seed(d, [m])
    if isinstance(e, str):
        return dict(m, error=e)
    cone = M.dependents(m["file"][:-2])
    fs = sorted((f for f in graph if f in cone), key=lambda f: times.get(f, 0))
    stop = threading.Event(); lock = threading.Lock()
    res, holes, errs = {}, list(e), {}
    def verdict():
        return M.failed(graph, {}, holes)
    if positive(verdict()): stop.set()
    def work(f):
        for _ in range(60):
            if stop.is_set(): return
            ok, pos, out, dt = M.check(d, f, 4 * times.get(f, 60) + 60)
            if ok: return
            n = M.admit(f"{d}/theories/{f}.v", pos)
            with lock:
                if n is None: errs[f] = out[-200:]; return
                holes.append(f"{f}.{n}")
                if positive(verdict()): stop.set()
    with cf.ThreadPoolExecutor(M.JOBS) as ex:
        list(ex.map(work, fs))
    return dict(m, holes=holes, failed=verdict(), error=errs or None, survived=not positive(verdict()))

def main():
    muts = json.load(open(sys.argv[1])); out = sys.argv[2]
    done = {json.loads(l)["id"] for l in open(out)} if os.path.exists(out) else set()
    G = json.load(open(M.TOP + "/graph.json")); graph, times = G["graph"], G["times"]
    for m in muts:
        if m["id"] in done: continue
        t = time.time()
        rec = one_mutant(m, graph, times)
        open(out, "a").write(json.dumps(rec) + "\n")
        print(m["id"], "SURVIVED" if rec.get("survived") else "", rec.get("error") or "", rec.get("holes"), len(rec.get("failed", [])),
              positive(rec.get("failed", []))[:6], round(time.time() - t), flush=True)

main()
