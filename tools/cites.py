#!/usr/bin/env python3
"""Print every 'File.ext:lines' citation of the model next to the cited source lines, for a manual check."""
import re,sys,os,glob
idx={}
for d,_,fs in os.walk('/repo/src'):
    for f in fs: idx.setdefault(f,[]).append(os.path.join(d,f))
for v in (sys.argv[1:] or sorted(glob.glob('/verif/rocq/theories/*.v'))):
    for n,l in enumerate(open(v),1):
        for m in re.finditer(r'([\w/]+\.(?:cc|h))[: ]+(\d+(?:-\d+)?(?:, ?\d+(?:-\d+)?)*)',l):
            f=os.path.basename(m.group(1)); ps=idx.get(f,[])
            if '/' in m.group(1):
                ps=[p for p in ps if p.endswith(m.group(1))]
            print(f'== {os.path.basename(v)}:{n} {m.group(0)}', '' if len(ps)==1 else f'?? {len(ps)} files')
            if not ps: continue
            src=open(ps[0]).read().split('\n')
            for r in m.group(2).split(','):
                a,_,b=r.strip().partition('-'); a=int(a); b=int(b or a)
                print('   ',a,src[a-1][:100] if a<=len(src) else 'OUT OF RANGE')
                if b!=a: print('   ',b,src[b-1][:100] if b<=len(src) else 'OUT OF RANGE')
