#!/usr/bin/env python3
"""Writes MANIFEST.json; theorem names are checked against the sources."""
import json,re,glob
names=set()
for f in glob.glob('/verif/rocq/theories/Props/*.v'):
    names|=set(re.findall(r'^(?:Theorem|Corollary|Lemma)\s+(\w+)',open(f).read(),re.M))
claims={}
def P(c,th,note=""): claims[c]=("proved",th,note)
def Q(c,th,note): claims[c]=("partial",th,note)
exec(open('/verif/tools/claims.py').read())
out=[]
ids=[json.loads(l)['id'] for l in open('/verif/properties.jsonl')]
for i in ids:
    if i in claims:
        s,th,n=claims[i]
        for t in th:
            assert t in names,(i,t)
        out.append({"property":i,"status":s,"theorems":th,"note":n})
    else: print("missing",i)
used=set(t for c in out for t in c["theorems"])
for n in sorted(names):
    if re.match(r'C\d\d_',n) and n not in used: print("unlisted theorem",n)
json.dump({"claims":out},open('/verif/MANIFEST.json','w'),indent=1)
