#!/usr/bin/env python3
"""Automatic mutation of every definition of the model: one small syntactic edit at a time in a scratch copy; a mutant is killed if some
file of Proofs/ or Props/ no longer compiles.  usage: automut.py out.jsonl [max-per-definition] [seed] [file...]"""
import json, sys, os, re, subprocess, random
SRC = "/verif/rocq"; W = "/tmp/am/w"; BASE = "/tmp/am/base"
out = sys.argv[1]; K = int(sys.argv[2]) if len(sys.argv) > 2 else 3; seed = int(sys.argv[3]) if len(sys.argv) > 3 else 1
only = sys.argv[4:]
random.seed(seed)
def blank(s):            # comments -> spaces (same length)
    r = list(s); i = 0; d = 0; instr = False
    while i < len(s):
        if d == 0 and s[i] == '"': instr = not instr
        if not instr and s[i:i+2] == "(*": d += 1; r[i] = r[i+1] = ' '; i += 2; continue
        if not instr and d and s[i:i+2] == "*)": d -= 1; r[i] = r[i+1] = ' '; i += 2; continue
        if d and s[i] != '\n': r[i] = ' '
        i += 1
    return "".join(r)
def match_paren(s, i):
    d = 0
    for j in range(i, len(s)):
        if s[j] == '(': d += 1
        if s[j] == ')':
            d -= 1
            if d == 0: return j
    return None
OPS = [(r'\btrue\b', 'false'), (r'\bfalse\b', 'true'), (r' <\? ', ' <=? '), (r' <=\? ', ' <? '), (r' < ', ' <= '), (r' <= ', ' < '), (r' ≤ ', ' < '),
       (r' > ', ' >= '), (r' >= ', ' > '), (r' && ', ' || '), (r' \|\| ', ' && '), (r' ∧ ', ' ∨ '), (r' ∨ ', ' ∧ '), (r'\bnegb ', ''), (r'\btake\b', 'drop'), (r'\bdrop\b', 'take'),
       (r'\bS n\b', 'n'), (r'\bS ([a-z])\b', r'\1'), (r'\brev ', ''), (r'\.1\b', '.2'), (r'\.2\b', '.1'), (r'\bRet tt\b', 'Err []'), (r' \+ ', ' - '), (r' - ', ' + '),
       (r'<\[[^\]]*:=[^\]]*\]> *', ''), (r'\bdelete [a-z_0-9]+ ', ''), (r' :: ', ' :: [] ++ tail '), (r'\bhead\b', 'last'), (r'\blast\b', 'head'), (r' ∪ ', ' ∩ '), (r' ∈ ', ' ∉ '), (r' ∉ ', ' ∈ '),
       (r'\bhas_prefix\b', 'has_suffix'), (r'\bhas_suffix\b', 'has_prefix'), (r'\bNone\b', 'Some []'), (r' <> ', ' = '), (r'(?<=[a-z\])]) = (?=[a-z\[(])', ' <> ')]
def mutants(text):
    b = blank(text)
    defs = [(m.start(), m.group(1)) for m in re.finditer(r'^(?:Definition|Fixpoint)\s+([\w\']+)', b, re.M)]
    ends = [m.start() for m in re.finditer(r'^(?:Definition|Fixpoint|Inductive|Record|Section|End|Context|Notation|Global|Instance|#\[)', b, re.M)] + [len(b)]
    for st, name in defs:
        en = min(e for e in ends if e > st)
        a = b.find(":=", st)
        if a < 0 or a > en: continue
        a += 2; c = []
        body = b[a:en]
        for pat, rep in OPS:
            for m in re.finditer(pat, body):
                new = re.sub(pat, rep, m.group(0)) if '\\1' in rep else rep
                c.append((a + m.start(), a + m.end(), new))
        for m in re.finditer(r'(?<![\w.])(\d+)(?![\w.])', body): c.append((a + m.start(), a + m.end(), str(int(m.group(1)) + 1)))
        for m in re.finditer(r'B "([^"]+)"', body): c.append((a + m.start(), a + m.end(), 'B "%s~"' % m.group(1)))
        for m in re.finditer(r'if decide \(', body):
            j = match_paren(body, m.end() - 1)
            if j: c.append((a + m.start(), a + j + 1, "if decide (~ " + text[a + m.end() - 1: a + j + 1] + ")"))
        for m in re.finditer(r' \+\+ \[[^\]]*\]', body): c.append((a + m.start(), a + m.end(), ""))
        for m in re.finditer(r'\b([a-z]\w*) \+\+ ([a-z]\w*)\b', body): c.append((a + m.start(), a + m.end(), m.group(2) + " ++ " + m.group(1)))
        for m in re.finditer(r'\b(\w+) ([a-z]\w*) ([a-z]\w*)\b', body):   # swapped arguments
            if m.group(1) not in ("match", "fun", "let", "with", "in", "then", "else", "end", "if") and not {m.group(2), m.group(3)} & {"in", "with", "then", "else", "end", "if", "match", "fun"}:
                c.append((a + m.start(), a + m.end(), "%s %s %s" % (m.group(1), m.group(3), m.group(2))))
        for m in re.finditer(r'if ([^:]*?) then ([^;|]*?) else ([^;|]*?)(?=[.)\n])', body):
            if 'if' not in m.group(2) + m.group(3): c.append((a + m.start(2), a + m.end(3), text[a + m.start(3):a + m.end(3)] + " else " + text[a + m.start(2):a + m.end(2)]))
        strs = [(a + m.start(), a + m.end()) for m in re.finditer(r'"[^"]*"', body)]
        msgs = [(a + m.start(), a + m.end()) for m in re.finditer(r'(?:Err|Panic|Crash\w*) \(B "[^"]*"', body)]
        c = [x for x in c if not any(i < x[0] and x[1] <= j for i, j in strs) and not any(i <= x[0] and x[1] <= j + 1 for i, j in msgs)]
        if re.search(r':\s*b?chan\s*$', b[st:a - 2].strip()): c = []
        random.shuffle(c)
        yield name, c
subprocess.run("rm -rf %s && cp -a %s %s" % (BASE, SRC, BASE), shell=True, check=True)
subprocess.run("coq_makefile -f _CoqProject -o Makefile >/dev/null && make -j3 >/dev/null 2>&1", shell=True, cwd=BASE)
subprocess.run("rm -rf %s && cp -a %s %s" % (W, BASE, W), shell=True, check=True)
done = set()
if os.path.exists(out):
    for l in open(out): x = json.loads(l); done.add((x["file"], x["definition"]))
for f in only or sorted(os.listdir(BASE + "/theories/Model")):
    if not f.endswith(".v"): continue
    p = BASE + "/theories/Model/" + f; text = open(p).read()
    for name, c in mutants(text):
        if (f, name) in done: continue
        n = 0
        for s, e, new in c:
            if n >= K: break
            mt = text[:s] + new + text[e:]
            if mt == text: continue
            subprocess.run("rm -rf %s && cp -a %s %s" % (W, BASE, W), shell=True, check=True)
            open(W + "/theories/Model/" + f, "w").write(mt)
            r = subprocess.run("timeout 60 coqc -q -Q theories Verif theories/Model/%s" % f, shell=True, cwd=W, capture_output=True, text=True)
            if r.returncode: continue            # ill-typed: no program
            n += 1
            r = subprocess.run("nice timeout 1500 make -j2 2>&1", shell=True, cwd=W, capture_output=True, text=True)
            g = re.findall(r'File "\./theories/([^"]+)", line (\d+)[^\n]*\n(?:[^\n]*\n)??Error', r.stdout)
            lo = max(text.rfind("\n", 0, s) + 1, 0); hi = text.find("\n", e)
            rec = dict(file=f, definition=name, old=text[lo:hi], new=mt[lo:mt.find("\n", s + len(new))], killed=r.returncode != 0, by=[a + ":" + b for a, b in g][:2])
            open(out, "a").write(json.dumps(rec) + "\n")
