#!/usr/bin/env python3
"""Seed one wrong program at a time into a scratch copy and see which theorems notice.

usage: mutate.py MUTANTS.json OUT.jsonl [only-id ...]

A mutant is {"id", "file", "old", "new", "claim"}: in the scratch copy the text
`old` of theories/file is replaced by `new` (it must occur exactly once) and
everything is rebuilt.  A proof that no longer goes through is replaced by
`Admitted` in the scratch copy and the build goes on; at the end the property
theorems that rest on such a hole are the ones that failed.
"""
import json, os, re, subprocess, sys, shutil

SRC = os.environ.get("MUT_SRC", "/verif/rocq")  # a built tree
DST = os.environ.get("MUT_DIR", "/tmp/w/mut/rocq")
JOBS = os.environ.get("MUT_JOBS", "3")

def sh(cmd, timeout=3000):
    return subprocess.run(cmd, shell=True, capture_output=True, text=True, timeout=timeout)

def property_theorems():
    out = []
    for f in sorted(os.listdir(DST + "/theories")):
        if f.startswith("Properties") and f.endswith(".v"):
            for m in re.finditer(r"^Theorem (C\d\d\w*)", open(f"{DST}/theories/{f}").read(), re.M):
                out.append((f[:-2], m.group(1)))
    return out

START = re.compile(r"^\s*(?:Local |Global |#\[[^\]]*\] )?(Lemma|Theorem|Example|Corollary|Remark|Fact|Instance)\s+([\w']+)", re.M)

def admit_at(path, line):
    s = open(path).read()
    pos = sum(len(l) + 1 for l in s.split("\n")[:line - 1]) + 1
    best = None
    for m in START.finditer(s):
        if m.start() <= pos + 200 and m.start() < pos + 1:
            best = m
    # the error may be reported on the line where the statement starts
    if best is None:
        return None
    p = re.compile(r"\bProof\b[^.]*\.").search(s, best.start())
    q = re.compile(r"\b(Qed|Defined)\.").search(s, best.start())
    if not p or not q or q.start() < p.start() or pos > q.end() + 5:
        return None
    s = s[:p.start()] + "Admitted." + s[q.end():]
    open(path, "w").write(s)
    return best.group(2)

def run(mut):
    sh(f"rm -rf {DST} && cp -a {SRC} {DST}")
    path = f"{DST}/theories/{mut['file']}"
    s = open(path).read()
    if s.count(mut["old"]) != 1:
        return {"error": f"old occurs {s.count(mut['old'])} times"}
    open(path, "w").write(s.replace(mut["old"], mut["new"]))
    holes = []
    begun = os.path.getmtime(path)
    for _ in range(80):
        r = sh(f"cd {DST} && make -k -j{JOBS} COQC='timeout 400 coqc'", timeout=7000)
        log = r.stdout + r.stderr
        if r.returncode == 0:
            break
        errs = re.findall(r'File "\./theories/(\w+)\.v", line (\d+), characters [\d-]+:\s*\n?Error', log)
        killed = re.findall(r"\*\*\* \[[^\]]*?theories/(\w+)\.vo\] Error (?:124|137)", log)
        if not errs:
            return {"holes": holes, "error": "no parsable error: " + log[-300:], "killed": killed}
        done = 0
        for f, l in dict(errs).items():
            n = admit_at(f"{DST}/theories/{f}.v", int(l))
            if n:
                holes.append(f"{f}.{n}"); done += 1
        if not done:
            return {"holes": holes, "error": "outside a proof: " + str(errs) + log[-300:]}
    else:
        return {"holes": holes, "error": "too many rounds"}
    if not holes:
        return {"holes": [], "failed": []}
    # the property files that were not built again cannot rest on a hole
    thms = [(m, t) for m, t in property_theorems()
            if os.path.getmtime(f"{DST}/theories/{m}.vo") >= begun]
    chk = f"{DST}/theories/ZZcheck.v"
    mods = sorted({m for m, _ in thms})
    with open(chk, "w") as fh:
        fh.write("From Coq Require Import Strings.String.\n")
        for m in mods:
            fh.write(f"From Verif Require {m}.\n")
        for m, t in thms:
            fh.write(f"Goal True. idtac \"@@{t}\". Abort.\nPrint Assumptions {m}.{t}.\n")
    r = sh(f"cd {DST} && coqc -Q theories Verif theories/ZZcheck.v")
    if r.returncode:
        return {"holes": holes, "error": "check: " + r.stderr[-300:]}
    failed = []
    for part in r.stdout.split("@@")[1:]:
        if "Closed under the global context" not in part:
            failed.append(part.split("\n")[0].strip())
    return {"holes": holes, "failed": failed}

def main():
    muts = json.load(open(sys.argv[1]))
    only = set(sys.argv[3:])
    done = set()
    if os.path.exists(sys.argv[2]):
        done = {json.loads(l)["id"] for l in open(sys.argv[2])}
    for m in muts:
        if (only and m["id"] not in only) or m["id"] in done:
            continue
        try:
            res = run(m)
        except subprocess.TimeoutExpired:
            res = {"error": "timeout"}
        with open(sys.argv[2], "a") as fh:
            fh.write(json.dumps({**m, **res}) + "\n")
        print(m["id"], "FAILED:", res.get("failed"), "HOLES:", res.get("holes"), res.get("error", ""), flush=True)

main()
