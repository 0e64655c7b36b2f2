#!/usr/bin/env python3
"""Applies each mutant of a JSON list to a scratch copy of rocq/, rebuilds, and prints/logs which theorems stop proving.
usage: mutate.py mutants.json   (entries: file, definition, old, new, claim[, tightened])"""
import json, sys, os, re, shutil, subprocess
SRC = os.environ.get("SRC", "/verif/rocq"); W = "/tmp/mut/rocq"; LOG = "/verif/seeded/LOG.jsonl"
def lemma_at(path, line):
    last = "?"
    for i, l in enumerate(open(path), 1):
        m = re.match(r"\s*(?:#\[\w+\]\s*)?(?:Theorem|Lemma|Corollary|Example|Definition|Fixpoint|Instance)\s+(\w+)", l)
        if m: last = m.group(1)
        if i >= line: break
    return last
BASE = "/tmp/mut/base"   # a built copy, restored before every mutant
os.makedirs("/tmp/mut", exist_ok=True)
subprocess.run("rm -rf %s && cp -a %s %s" % (BASE, SRC, BASE), shell=True, check=True)
subprocess.run("coq_makefile -f _CoqProject -o Makefile >/dev/null && make -j4 >/dev/null 2>&1", shell=True, cwd=BASE)
muts = json.load(open(sys.argv[1]))[int(sys.argv[2]) if len(sys.argv) > 2 else 0:]
for m in muts:
    subprocess.run("rm -rf %s && cp -a %s %s" % (W, BASE, W), shell=True, check=True)
    p = os.path.join(W, "theories", m["file"])
    orig = open(p).read()
    if orig.count(m["old"]) != 1:
        print("BAD MUTANT (count %d): %s" % (orig.count(m["old"]), m["old"])); continue
    open(p, "w").write(orig.replace(m["old"], m["new"]))
    try:
        r = subprocess.run("timeout 900 make -k -j2 " + (m.get("targets") or os.environ.get("TARGETS", "")) + " 2>&1", shell=True, cwd=W, capture_output=True, text=True, timeout=1000)
        out = r.stdout
    except subprocess.TimeoutExpired:
        out = "TIMEOUT"
    failed = []
    for f, l in re.findall(r'File "\./(theories/[^"]+)", line (\d+)[^\n]*\n(?:[^\n]*\n)??Error', out):
        failed.append(lemma_at(os.path.join(W, f), int(l)) + " (" + os.path.basename(f) + ")")
    blocked = []
    for f in sorted(os.listdir(W + "/theories/Props")) if not (m.get("targets") or os.environ.get("TARGETS")) else []:
        if f.endswith(".v"):
            vo = W + "/theories/Props/" + f[:-2] + ".vo"
            src = [x for x in subprocess.run(["make", "-n"], cwd=W, capture_output=True, text=True).stdout.split() if x.endswith("Props/" + f)]
            if src: blocked.append(f)
    sys.stdout.flush(); print(m["definition"], "|", m["new"][:60].replace("\n", " "), "| failed:", failed, "| blocked props:", blocked)
    rec = {"definition": m["definition"], "file": m["file"], "edit": "%s  ==>  %s" % (m["old"], m["new"]), "claim_broken": m["claim"],
           "theorems_failed": failed, "property_files_not_building": blocked, "survived": not failed, "theorems_tightened": m.get("tightened", [])}
    if m.get("note"): rec["note"] = m["note"]
    open(LOG, "a").write(json.dumps(rec) + "\n")
