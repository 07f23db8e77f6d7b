#!/usr/bin/env python3
"""Random single edits of the model, each built until the first error in a scratch copy; survivors are the interesting ones.
usage: automut.py SEED COUNT JOBS OUT [file-substring]"""
import re,random,subprocess,sys,shutil,os,json,glob
seed,count,jobs,out=int(sys.argv[1]),int(sys.argv[2]),sys.argv[3],sys.argv[4]
only=sys.argv[5] if len(sys.argv)>5 else ''
BASE='/tmp/base/rocq'; S='/tmp/auto%d/rocq'%seed
rnd=random.Random(seed)
def mask(s):
    o=list(s); d=0; i=0
    while i<len(s):
        if s[i:i+2]=='(*': d+=1; o[i]=o[i+1]=' '; i+=2; continue
        if s[i:i+2]=='*)' and d: d-=1; o[i]=o[i+1]=' '; i+=2; continue
        if d and s[i]!='\n': o[i]=' '
        i+=1
    return ''.join(o)
def sites(s):
    m=mask(s); r=[]
    def add(p,f):
        for x in re.finditer(p,m):
            n=f(x)
            if n is not None and n!=x.group(0): r.append((x.start(),x.end(),n))
    add(r'(?<![<=])<\?',lambda x:'<=?'); add(r'<=\?',lambda x:'<?'); add(r'(?<![<=])=\?',lambda x:'<=?')
    add(r' \+ (?=\w)',lambda x:' - '); add(r' - (?=\w)',lambda x:' + ')
    add(r'&&',lambda x:'||'); add(r'\|\|',lambda x:'&&'); add(r'\bnegb ',lambda x:'id ')
    add(r'\btrue\b',lambda x:'false'); add(r'\bfalse\b',lambda x:'true')
    add(r'\bSET\b',lambda x:'CLEARED'); add(r'\bCLEARED\b',lambda x:'SET')
    add(r'(?<![\w.])(\d+)(?![\w%])',lambda x:str(int(x.group(1))+1))
    add(r'0x([0-9A-Fa-f]+)',lambda x:'0x%X'%(int(x.group(1),16)+1))
    labels=sorted(set(re.findall(r'\b[MLHUPQ]\d{2,3}\b',m)))
    add(r'(?<=Some )([MLHU]\d{2,3})\b',lambda x:rnd.choice([l for l in labels if l[0]==x.group(1)[0] and l!=x.group(1)] or [x.group(1)]))
    add(r'let s := [^\n;]* in\n',lambda x:'\n'); add(r'let r := [^\n;]* in\n',lambda x:'\n'); add(r'let d := [^\n;]* in\n',lambda x:'\n'); add(r'let m := [^\n;]* in\n',lambda x:'\n')
    add(r'\[(MTOut|TOut|MTEv|TEv|SoSend|MoSend|SoExec)[^\]\n]*\]',lambda x:'[]')
    return r
pool=[]
for f in sorted(glob.glob(BASE+'/theories/Model/*.v')):
    if only and only not in f: continue
    s=open(f).read()
    if f.endswith('SlaveIrqRun.v') : pass
    for x in sites(s):
        ln=s[:x[0]].count('\n'); t=s.split('\n')[ln]
        if 'Notation' in t or 'at level' in t or re.match(r'Definition \w+_data\b',t): continue
        pool.append((f,)+x)
print(len(pool),'sites'); rnd.shuffle(pool)
# files in turn, so that long files do not dominate
by={}
for x in pool: by.setdefault(x[0],[]).append(x)
fs=sorted(by); rnd.shuffle(fs); pool=[by[f][i] for i in range(max(map(len,by.values()))) for f in fs if i<len(by[f])]
n=0
for f,a,b,new in pool:
    if n>=count: break
    shutil.rmtree(S,ignore_errors=True); os.makedirs(os.path.dirname(S),exist_ok=True); subprocess.run(['cp','-a',BASE,S],check=True)
    s=open(f).read(); p=f.replace(BASE,S)
    line=s[:a].count('\n')+1; old=s[a:b]
    open(p,'w').write(s[:a]+new+s[b:])
    defs=[x.group(1) for x in re.finditer(r'^(?:Definition|Fixpoint|Inductive|Record)\s+([\w\']+)',s[:a],re.M)]
    rel=os.path.relpath(f,BASE+'/theories')
    try:
        r=subprocess.run(['make','-j'+jobs],cwd=S,stdout=subprocess.PIPE,stderr=subprocess.STDOUT,timeout=1500); o=r.stdout.decode(errors='replace'); rc=r.returncode
    except subprocess.TimeoutExpired as e:
        o=(e.stdout or b'').decode(errors='replace'); rc='timeout'; subprocess.run('pkill -f auto%d/'%seed,shell=True)
    er=re.findall(r'File "\./(theories/[^"]+)", line (\d+)',o)
    if rc!=0 and any('Model/' in e[0] for e in er) : continue   # ill-typed
    n+=1
    rec=dict(file=rel,line=line,definition=defs[-1] if defs else '?',old=old,new=new,ctx=s.split('\n')[line-1].strip()[:160],result='SURVIVED' if rc==0 else 'timeout' if rc=='timeout' else 'caught',err=er[:1])
    open(out,'a').write(json.dumps(rec)+'\n')
