#!/usr/bin/env python3
"""Print Assumptions for every theorem of MANIFEST.json, in a built tree -> tools/assumptions.json"""
import json,subprocess,re,os,glob
root='/verif'
th=[t for c in json.load(open(root+'/MANIFEST.json'))['claims'] for t in c['theorems']]
mods=[os.path.basename(f)[:-2] for f in sorted(glob.glob(root+'/rocq/theories/Prop_*.v'))]
where={}
for m_ in mods:
    s=open(f'{root}/rocq/theories/{m_}.v').read()
    for t in th:
        if re.search(r'(Theorem|Lemma|Example|Corollary)\s+'+t+r'\b',s): where[t]=m_
v='\n'.join(f'From Verif Require {m_}.' for m_ in mods)+'\n'
for t in th: v+=f'Goal True. idtac "@@{t}". Abort.\nPrint Assumptions Verif.{where[t]}.{t}.\n'
open('/tmp/asm.v','w').write(v)
out=subprocess.run('coqc -q -Q /verif/rocq/theories Verif /tmp/asm.v',shell=True,capture_output=True,text=True)
res={}; cur=None
for l in out.stdout.split('\n'):
    if l.startswith('@@'): cur=l[2:]; res[cur]=[]
    else:
        m=re.match(r'^([\w.]+)(?: :|$)',l)
        if m and cur: res[cur].append(m.group(1))
print(out.stderr[-500:]); print(len(res),len(th))
print({a for r in res.values() for a in r})
json.dump({t:r for t,r in res.items() if r},open(root+'/tools/assumptions.json','w'),indent=0)
