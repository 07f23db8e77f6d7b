# Fills section 6 of DESIGN.md: Print Assumptions for every theorem of MANIFEST.json (needs a built rocq/).
import json,re,subprocess,os,glob
base='/verif/rocq/theories'
man=json.load(open('/verif/MANIFEST.json'))
where={}
for f in sorted(glob.glob(base+'/Props/*.v')):
    for m in re.finditer(r'^\s*(?:Theorem|Lemma|Corollary)\s+(\w+)',open(f).read(),re.M): where[m.group(1)]=os.path.basename(f)[:-2]
ths=[(c['property'],t) for c in man['claims'] for t in c['theorems']]
src='From Verif Require '+' '.join('Props.'+os.path.basename(f)[:-2] for f in sorted(glob.glob(base+'/Props/*.v')))+'.\n'
for _,t in ths: src+='Print Assumptions Verif.Props.%s.%s.\n'%(where[t],t)
open('/tmp/Assump.v','w').write(src)
out=subprocess.run(['coqc','-Q',base,'Verif','/tmp/Assump.v'],capture_output=True,text=True,timeout=600)
assert out.returncode==0,out.stderr
res=[l for l in out.stdout.split('\n') if l.strip()]
assert len(res)==len(ths),(len(res),len(ths))
assert all(l=='Closed under the global context' for l in res),set(res)
by={}
for (c,t),r in zip(ths,res): by.setdefault(c,[]).append((t,where[t]))
txt='| property | theorem (file `Props/`) | Print Assumptions |\n|---|---|---|\n'
for c in sorted(by):
    txt+='| %s | %s | Closed under the global context |\n'%(c,', '.join('`%s` (%s)'%x for x in by[c]))
d=open('/verif/DESIGN.md').read()
i=d.index('<!-- assumptions -->')
open('/verif/DESIGN.md','w').write(d[:i]+'<!-- assumptions -->\n'+txt)
print(len(ths),'theorems closed')
