"""addprop.py FILE.json: adds a property to mkprops.py, notes.json and DESIGN.md.
FILE.json: {title, statement, quantifier, why, anchors, status, note, model, proof}"""
import json, re, sys
d = json.load(open(sys.argv[1]))
f = '/verif/tools/mkprops.py'; s = open(f).read()
pid = 'C%02d' % (sum(1 for _ in open('/verif/properties.jsonl')) + 1)
add = 'p(%s)\n' % ',\n  '.join(json.dumps(d[k], ensure_ascii=False) for k in ('title', 'statement', 'quantifier', 'why', 'anchors'))
s = s.replace('with open("/verif/properties.jsonl"', add + 'with open("/verif/properties.jsonl"'); open(f, 'w').write(s)
f = '/verif/tools/notes.json'; n = json.load(open(f)); n[pid] = [d['status'], d['note']]; json.dump(n, open(f, 'w'), indent=1, ensure_ascii=False)
f = '/verif/DESIGN.md'; L = open(f).read().split('\n')
i = max(k for k, x in enumerate(L) if re.match(r'\| C\d+ \|', x))
L.insert(i + 1, '| %s | %s | %s |' % (pid, d['model'], d['proof'])); open(f, 'w').write('\n'.join(L))
import subprocess
print(pid); subprocess.run(['python3', '/verif/tools/mkprops.py'], stdout=subprocess.DEVNULL); subprocess.run(['python3', '/verif/tools/mkmanifest.py'])
