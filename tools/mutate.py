#!/usr/bin/env python3
"""Apply each seeded bug of tools/mutants.py to a scratch copy of the model, rebuild with make -k, append one line per bug to seeded/LOG.jsonl.
usage: mutate.py [id ...]   (default: all bugs not yet in the log)"""
import json,os,re,subprocess,sys,shutil
V='/verif'; S='/tmp/mut/rocq'
sys.path.insert(0,V+'/tools')
from mutants import M
LOG=V+'/seeded/LOG.jsonl'
done={json.loads(l)['bug'] for l in open(LOG)} if os.path.exists(LOG) else set()
want=sys.argv[1:]
TH=re.compile(r'^\s*(?:Theorem|Lemma|Example|Corollary|Fact|Remark|Definition|Fixpoint|Instance)\s+([\w\']+)')
def lemma(path,line):
    name='?'
    for i,l in enumerate(open(path),1):
        if i>line: break
        m=TH.match(l)
        if m: name=m.group(1)
    return name
def closure(mod,seen=None):
    seen=set() if seen is None else seen
    p=S+'/theories/'+mod+'.v'
    if not os.path.exists(p): return seen
    for m in re.finditer(r'From Verif Require (?:Import |Export )?(.*?)\.\s*\n',open(p).read()):
        for x in m.group(1).split():
            x=x.replace('.','/')
            if x not in seen:
                seen.add(x); closure(x,seen)
    return seen
for b in M:
    if want and b['bug'] not in want: continue
    if not want and b['bug'] in done: continue
    os.makedirs('/tmp/mut',exist_ok=True)
    shutil.rmtree(S,ignore_errors=True); subprocess.run(['cp','-a','/tmp/base/rocq',S],check=True)
    p=S+'/theories/'+b['file']; s=open(p).read()
    assert s.count(b['old'])>=1,(b['bug'],'not found')
    n=b.get('nth',0); parts=s.split(b['old'])
    assert len(parts)>n+1
    if len(parts)>2 and 'nth' not in b: print('WARN multiple',b['bug'])
    s=b['old'].join(parts[:n+1])+b['new']+b['old'].join(parts[n+1:])
    open(p,'w').write(s)
    r=subprocess.run('coq_makefile -f _CoqProject -o Makefile >/dev/null; timeout 2400 make -k -j2 2>&1',shell=True,cwd=S,capture_output=True,text=True)
    errs=[]
    for m in re.finditer(r'File "\./(theories/[^"]+)", line (\d+)[^\n]*\n(?!Warning)(?:Error)?',r.stdout):
        seg=r.stdout[m.end()-6:m.end()+300]
        if 'Error' not in seg.split('File "')[0]: continue
        errs.append((m.group(1)[9:-2].replace('/','.'),lemma(S+'/'+m.group(1),int(m.group(2)))))
    failed=sorted(set('%s (%s)'%(b_,a) for a,b_ in errs))
    lost=[]
    for root,_,fs in os.walk(S+'/theories/Props'):
        for f in sorted(fs):
            if f.endswith('.v'):
                vo=os.path.join(root,f[:-2]+'.vo'); v=os.path.join(root,f)
                bad={a.replace('.','/') for a,_ in errs}
                dep=('Props/'+f[:-2]) in bad or any(x in closure('Props/'+f[:-2]) for x in bad)
                if dep:
                    stop=None
                    for a,x in errs:
                        if a=='Props.'+f[:-2]: stop=x
                    ths=[m.group(1) for m in map(re.compile(r'^Theorem (C\d\d\w*)').match,open(v)) if m]
                    if stop in ths: ths=ths[ths.index(stop):]
                    lost+=ths
    rec={'bug':b['bug'],'definition':b['def'],'edit':b['edit'] if 'edit' in b else '%s -> %s'%(b['old'],b['new']),'claim_broken':b['claim'],'result':'caught' if errs else ('SURVIVED' if r.returncode==0 else 'build error'),'theorems_failed':failed,'claims_not_established':sorted(set(re.match(r'C\d+',x).group(0) for x in lost)),'theorems_tightened':b.get('tightened',[])}
    if r.returncode and not errs: rec['tail']=r.stdout[-500:]
    with open(LOG,'a') as f: f.write(json.dumps(rec)+'\n')
    print(rec['bug'],rec['result'],failed,rec['claims_not_established'],flush=True)
