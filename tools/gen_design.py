#!/usr/bin/env python3
"""DESIGN.md = tools/design_head.md + per-property table from MANIFEST.json, properties.jsonl
and /tmp/assumptions.json (theorem -> list of axioms), if present."""
import json,os
root=os.path.dirname(os.path.dirname(os.path.abspath(__file__)))
s=open(root+'/tools/design_head.md').read()
props={json.loads(l)['id']:json.loads(l) for l in open(root+'/properties.jsonl')}
ax=json.load(open(root+'/tools/assumptions.json')) if os.path.exists(root+'/tools/assumptions.json') else {}
s+='## 5. Status per property\n\nTheorems marked R rest on the four standard-library axioms of section 3; the others are closed under the global context.  Theorems named `*_refuted` prove that the code violates the unconditional form, by a concrete run.\n\n'
for c in json.load(open(root+'/MANIFEST.json'))['claims']:
    p=props[c['property']]
    th=', '.join('`'+t+'`'+(' (R)' if ax.get(t) else '') for t in c['theorems'])
    s+=f"* **{c['property']} {p['title']}** - {c['status']}.  {p['plan'] if 'plan' in p else ''}{th}.  {c['note']}\n"
open(root+'/DESIGN.md','w').write(s)
