#!/usr/bin/env python3
"""Applies each edit of a list to a scratch copy of the model, rebuilds, and logs which theorems no longer prove.
usage: mutate.py mutants.json   (list of {file, def, old, new, claim, expect})"""
import json,os,re,shutil,subprocess,sys,glob
BASE='/tmp/mut/base'; W='/tmp/mut/w'; LOG='/verif/seeded/LOG.jsonl'
def thms(path):
    return [(m.start(),m.group(2)) for m in re.finditer(r'^\s*(Theorem|Lemma|Corollary)\s+([\w\']+)',open(path).read(),re.M)]
done=set()
if os.path.exists(LOG):
    for l in open(LOG):
        try: done.add(json.loads(l)['edit'])
        except Exception: pass
for mu in json.load(open(sys.argv[1])):
    edit=f"{mu['file']}: {mu['old']}  =>  {mu['new']}"+''.join(f"; and {f}: {o}  =>  {n}" for f,o,n in mu.get('also',[]))
    if edit in done: continue
    shutil.rmtree(W,ignore_errors=True); subprocess.run(['cp','-a',BASE,W],check=True)
    p=f"{W}/theories/{mu['file']}"; s=open(p).read()
    n=s.count(mu['old'])
    if n!=1:
        print('SKIP',n,edit); continue
    open(p,'w').write(s.replace(mu['old'],mu['new']))
    # an edit in several places, such as the same change in the encoder and in the decoder
    bad=False
    for f2,o2,n2 in mu.get('also',[]):
        q=f"{W}/theories/{f2}"; s2=open(q).read()
        if s2.count(o2)!=1: print('SKIP also',s2.count(o2),o2); bad=True
        open(q,'w').write(s2.replace(o2,n2))
    if bad: continue
    subprocess.run('coq_makefile -f _CoqProject -o Makefile',shell=True,cwd=W,stdout=subprocess.DEVNULL)
    before={v:os.path.getmtime(v) for v in glob.glob(W+'/theories/*.vo')}
    try:
        r=subprocess.run('nice make -k -j%s 2>&1'%os.environ.get('J','2'),shell=True,cwd=W,capture_output=True,text=True,timeout=1200); out=r.stdout
    except subprocess.TimeoutExpired as e:
        out=(e.stdout or b'').decode() if isinstance(e.stdout,bytes) else (e.stdout or ''); out+='\nTIMEOUT'
        subprocess.run("pkill -f /tmp/mut/w; pkill coqc",shell=True)
    broken=[];files=set()
    for m in re.finditer(r'File "\./theories/(\w+)\.v", line (\d+), characters \d+-\d+:\nError',out):
        f=m.group(1); files.add(f); ln=int(m.group(2)); src=open(f"{W}/theories/{f}.v").read().split('\n')
        pos=len('\n'.join(src[:ln])); nm=[t for q,t in thms(f"{W}/theories/{f}.v") if q<pos]
        broken.append(f"{f}.{nm[-1] if nm else '?'}")
    # theorems of files that were not rebuilt: stale
    mt=os.path.getmtime(p); stale=[]
    deps={}
    for v in glob.glob(W+'/theories/*.v'):
        t=re.sub(r'\(\*.*?\*\)','',open(v).read(),flags=re.S)
        deps[os.path.basename(v)[:-2]]=set(x for m in re.finditer(r'From Verif Require (?:Import|Export)\s+([^.]*)\.',t) for x in m.group(1).split())
    changed={mu['file'][:-2]}
    while True:
        n=changed|{k for k,d in deps.items() if d&changed}
        if n==changed: break
        changed=n
    for v in sorted(glob.glob(W+'/theories/*.v')):
        vo=v+'o'; b=os.path.basename(v)[:-2]
        if b in files or (b in changed and (not os.path.exists(vo) or os.path.getmtime(vo)<mt)):
            nm=[t for _,t in thms(v) if re.match(r'C\d\d_',t)]
            if b in files:
                first=[x.split('.')[1] for x in broken if x.startswith(b+'.')][0]
                allt=[t for _,t in thms(v)]; nm=[t for t in nm if allt.index(t)>=allt.index(first)] if first in allt else nm
            stale+=nm
    depsurv=[]
    rec=dict(definition=mu['def'],edit=edit,claim_broken=mu['claim'],proofs_broken_first=broken,theorems_failed=stale,
             caught=bool(broken),expected=mu.get('expect',[]),expected_failed=all(any(t==e or t.startswith(e+'_') for t in stale) or any(b.endswith('.'+e) for b in broken) for e in mu.get('expect',[])),theorems_tightened=mu.get('tightened',[]))
    if 'TIMEOUT' in out: rec['timeout']=True
    print(json.dumps({k:rec[k] for k in('definition','caught','expected_failed')}),broken[:4],len(stale),flush=True)
    open(LOG,'a').write(json.dumps(rec)+'\n')
