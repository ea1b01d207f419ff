#!/usr/bin/env python3
# fills the table of section 6 of DESIGN.md from properties.jsonl and MANIFEST.json
import json,os
d=os.path.join(os.path.dirname(__file__),'..')
P={}
for l in open(d+'/properties.jsonl'):
    o=json.loads(l); P[o['id']]=o
M={c['property']:c for c in json.load(open(d+'/MANIFEST.json'))['claims']}
HOW=json.load(open(d+'/tools/how.json'))
rows=['| id | property | modelled, and how it is proved | status | theorems |','|----|----|----|----|----|']
for k in sorted(P):
    c=M.get(k)
    rows.append('| %s | %s | %s | %s | %s |'%(k,P[k]['title'],HOW.get(k,''),c['status'] if c else 'open',', '.join(c['theorems']) if c else ''))
s=open(d+'/DESIGN.md').read()
a='<!-- table -->\n'; b='<!-- end table -->'
i=s.index(a)+len(a); j=s.index(b)
open(d+'/DESIGN.md','w').write(s[:i]+'\n'.join(rows)+'\n'+s[j:])
