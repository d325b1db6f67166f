#!/usr/bin/env python3
"""/tmp/mutlog.jsonl (written by tools/mutate.py) + seeded/tightened.json -> seeded/LOG.jsonl.
Only appends attempts that are not in LOG.jsonl yet (an attempt = id + run number)."""
import json,os
L='/verif/seeded/LOG.jsonl'
tight=json.load(open('/verif/seeded/tightened.json')) if os.path.exists('/verif/seeded/tightened.json') else {}
have=set()
if os.path.exists(L):
    have={(json.loads(l)['id'],json.loads(l).get('run',1)) for l in open(L) if l.strip()}
cnt={}; out=open(L,'a')
for l in open('/tmp/mutlog.jsonl'):
    r=json.loads(l); cnt[r['id']]=cnt.get(r['id'],0)+1; k=(r['id'],cnt[r['id']])
    if k in have: continue
    t=tight.get(r['id'],{}) if k[1]==1 else {}
    hit=set(r['properties'])&set(r['props_failed'])
    out.write(json.dumps({'id':r['id'],'run':k[1],'definition':r['definition'],'edit':r['edit'],'claim_broken':r['claim_broken'],
      'properties':r['properties'],'theorems_failed':r['theorems_failed'],'first_failing':r['first_failing'],
      'result':'survived' if r['survived'] else ('caught' if hit else 'caught by another property'),
      'theorems_tightened':t.get('tightened',[]),'note':t.get('note','')})+'\n')
