"""showclaim.py Cnn ...: the property, its status and the statements of its theorems."""
import json,sys,re,glob
P={json.loads(l)['id']:json.loads(l) for l in open('/verif/properties.jsonl')}
M={c['property']:c for c in json.load(open('/verif/MANIFEST.json'))['claims']}
T={}
for f in glob.glob('/verif/rocq/theories/Props/*.v'):
    s=open(f).read()
    for m in re.finditer(r'((?:\(\*\*(?:(?!\*\)).)*\*\)\s*)?)(?:Theorem|Example|Lemma|Corollary) (C\d{2,3}_\w+)(.*?)\n?\s*Proof',s,re.S):
        T[m.group(2)]=(f.split('/')[-1],m.group(1).strip(),re.sub(r'\s+',' ',m.group(3)))
for i in sys.argv[1:]:
    p=P[i];c=M[i]
    print('=====',i,p['title'],'[',c['status'],']');print('S:',p['statement']);print('Q:',p['quantifier']);print('N:',c['note'])
    for t in c['theorems']:
        f,d,b=T.get(t,('?','','?'));print('  --',t,'(%s)'%f,d.replace('\n',' '));print('    ',b[:1800])
