#!/usr/bin/env python3
"""Transcribes the regular expression ignorePatterns of /repo/ripsrc/fileinfo/gitignore.go into a Coq list of
(anchored at start, literal, anchored at end), expanding groups and classes; an optional group at the end of an alternative
that is not anchored there does not change what matches and is dropped."""
import re
src=open('/repo/ripsrc/fileinfo/gitignore.go').read()
rx=re.search(r'MustCompile\(`\((.*)\)`\)',src,re.S).group(1)
# split top-level alternatives
alts=[];d=0;cur=''
i=0
while i<len(rx):
    c=rx[i]
    if c=='\\': cur+=rx[i:i+2]; i+=2; continue
    if c=='[':
        j=rx.index(']',i); cur+=rx[i:j+1]; i=j+1; continue
    if c=='(': d+=1
    if c==')': d-=1
    if c=='|' and d==0: alts.append(cur); cur=''
    else: cur+=c
    i+=1
alts.append(cur)
def expand(s):
    """list of token lists; tokens: ('c',ch) '^' '$'"""
    out=[[]]; i=0
    while i<len(s):
        c=s[i]
        if c=='\\': opts=[[('c',s[i+1])]]; i+=2
        elif c=='[':
            j=s.index(']',i); cls=s[i+1:j].replace('\\',''); opts=[[('c',x)] for x in cls]; i=j+1
        elif c=='(':
            d=1;j=i+1
            while d:
                if s[j]=='\\': j+=1
                elif s[j]=='(': d+=1
                elif s[j]==')': d-=1
                j+=1
            inner=s[i+1:j-1]; parts=[];dd=0;cur='';k=0
            while k<len(inner):
                if inner[k]=='\\': cur+=inner[k:k+2];k+=2;continue
                if inner[k]=='|': parts.append(cur);cur=''
                else: cur+=inner[k]
                k+=1
            parts.append(cur)
            opts=[e for p in parts for e in expand(p)]; i=j
        elif c=='^' or c=='$': opts=[[c]]; i+=1
        else:
            assert c not in '.*+?{}', (s,c)
            opts=[[('c',c)]]; i+=1
        if i<len(s) and s[i]=='?': opts=opts+[[]]; i+=1
        assert not (i<len(s) and s[i] in '*+'), s
        out=[a+b for a in out for b in opts]
    return out
res=[]
for a in alts:
    for t in expand(a):
        st = bool(t) and t[0]=='^'; en = bool(t) and t[-1]=='$'
        lit=t[1 if st else 0: len(t)-1 if en else len(t)]
        assert all(isinstance(x,tuple) for x in lit),(a,t)
        s=''.join(x[1] for x in lit)
        # without an end anchor a longer literal with the shorter one as prefix is implied
        r=(st,s,en)
        if r not in res: res.append(r)
# drop implied: unanchored-end literals that extend another one
res2=[r for r in res if not any(o!=r and o[0]==r[0] and not o[2] and not r[2] and r[1].startswith(o[1]) for o in res)]
# check of the transcription on random paths
import random
random.seed(1); pr=re.compile('('+rx.replace('`','')+')'); frag=[l for _,l,_ in res]+['/','a','.','min','x/','.js','.md','-']
m=lambda p: any((p==l if s_ and e else p.startswith(l) if s_ else p.endswith(l) if e else l in p) for s_,l,e in res2)
for _ in range(200000):
    p=''.join(random.choice(frag) if random.random()<.5 else random.choice('/a.bB-') for _ in range(random.randint(1,5)))
    assert m(p)==bool(pr.search(p)),p
b=lambda x:'true' if x else 'false'
print(len(alts),len(res),len(res2))
print(';\n'.join('   (%s, B "%s", %s)'%(b(s),l,b(e)) for s,l,e in res2), file=open('/tmp/ign.v','w'))
