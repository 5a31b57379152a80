#!/usr/bin/env python3
"""Apply a seeded bug to a scratch copy of the model, rebuild, admit every proof that breaks, and
report which C-theorems depend on a broken proof.  usage: seed.py mutations.json [start] [end]
mutation: {"file","definition","old","new","claim","expect":[...]}; result lines go to seeded/LOG.jsonl
(theorems_tightened is filled in by hand in the mutation: "tightened")."""
import json,re,subprocess,os,sys,glob,shutil,time
SRC=os.environ.get('SRC','/verif/rocq'); DST='/tmp/scratch/rocq'
PF=int(os.environ.get('PF','60')); NW=int(os.environ.get('NW','2'))
def sh(c,t=None):
    try:
        r=subprocess.run(c,shell=True,capture_output=True,text=True,timeout=t); return r.returncode,r.stdout+r.stderr
    except subprocess.TimeoutExpired as e: return 124,''
HEAD=re.compile(r'^\s*(?:Local |Global |#\[\w+\] )?(Lemma|Theorem|Example|Corollary|Fact|Remark|Proposition|Instance|Goal|Definition|Fixpoint)\b\s*([\w\']*)')
def lineof(f,off): 
    b=open(f,'rb').read(); return b[:off].count(b'\n')+1
def deps():
    rc,o=sh(f'cd {DST} && coqdep -Q theories Verif theories/*.v'); d={}
    for l in o.splitlines():
        if '.vo' not in l or ':' not in l: continue
        a,b=l.split(':',1); m=re.search(r'theories/(\w+)\.vo\b',a)
        if m: d[m.group(1)]=set(re.findall(r'theories/(\w+)\.vo\b',b))-{m.group(1)}
    return d
def run(m):
    sh('mkdir -p /tmp/scratch'); sh(f'rm -rf {DST}; cp -a {SRC} {DST}')
    p=f'{DST}/theories/{m["file"]}'; s=open(p).read()
    if s.count(m['old'])!=1: return {'err':f'old occurs {s.count(m["old"])} times'}
    open(p,'w').write(s.replace(m['old'],m['new']))
    d=deps(); root=m['file'][:-2]; aff=[]; 
    changed={root}; order=[]; seen=set()
    def topo(x):
        if x in seen: return
        seen.add(x)
        for y in sorted(d[x]): topo(y)
        order.append(x)
    for x in sorted(d): topo(x)
    for x in order:
        if x in changed or d[x]&changed: changed.add(x); aff.append(x)
    # only the files that the expected theorems' Prop files need
    want=set()
    for f in glob.glob(f'{SRC}/theories/Prop*.v'):
        th=re.findall(r'^\s*Theorem (C\d\d_\w+)',open(f).read(),re.M)
        if any(t.startswith(e) for t in th for e in m.get('expect',[])): want.add(os.path.basename(f)[:-2])
    todo=list(want); clo=set()
    while todo:
        x=todo.pop()
        if x in clo: continue
        clo.add(x); todo+=list(d[x])
    if want: aff=[x for x in aff if x in clo]
    broken=[]; dead=[]; deadset=set()
    import concurrent.futures as cf
    def build(x):
        f=f'{DST}/theories/{x}.v'
        br=[]
        for it in range(60):
            rc,o=sh(f'cd {DST} && ulimit -v 5000000; nice -n 10 timeout {PF} coqc -time -w none -Q theories Verif theories/{x}.v > /tmp/scratch/{x}.out 2>&1')
            if rc==0: return x,br,None
            out=open(f'/tmp/scratch/{x}.out',errors='replace').read()
            mm=re.findall(r'File "[^"]*", line (\d+), characters',out)
            if rc==124 or not mm:
                c=re.findall(r'^Chars (\d+) - (\d+)',out,re.M)
                ln=lineof(f,int(c[-1][1])+1) if c else 1; why='timeout'
            else: ln=int(mm[-1]); why='error'
            L=open(f).read().split('\n')
            i=ln-1
            while i>=0 and not HEAD.match(L[i]): i-=1
            if i<0: return x,br,f'{x}:{ln} outside a proof'
            h=HEAD.match(L[i]); txt='\n'.join(L[i:])
            pm=re.search(r'\bProof\b[^.]*\.',txt); q=re.search(r'\b(Qed|Defined)\.',txt)
            if h.group(1) in('Fixpoint',) or not pm or not q or ln-1< i+txt[:pm.start()].count('\n'):
                return x,br,f'{x}:{ln} {h.group(2)} statement no longer compiles'
            new=txt[:pm.start()]+'Proof. Admitted.'+txt[q.end():]
            open(f,'w').write('\n'.join(L[:i]+[new])); br.append(f'{x}.{h.group(2)}'+('' if why=='error' else ' (timeout)'))
        return x,br,f'{x}: too many'
    done=set(x for x in d if x not in changed)
    todo=list(aff)
    with cf.ThreadPoolExecutor(NW) as ex:
        fut={}
        while todo or fut:
            for x in list(todo):
                if d[x]&deadset: todo.remove(x); deadset.add(x); dead.append(x+' (dependency)'); 
                elif d[x]<=done and len(fut)<NW: todo.remove(x); fut[ex.submit(build,x)]=x
            if not fut: break
            dn,_=cf.wait(fut,return_when=cf.FIRST_COMPLETED)
            for q in dn:
                x,br,e=q.result(); del fut[q]; broken+=br
                if e: deadset.add(x); dead.append(e)
                else: done.add(x)
    fails=[]
    for x in aff:
        if not x.startswith('Prop'): continue
        s=open(f'{SRC}/theories/{x}.v').read(); th=re.findall(r'^\s*Theorem (C\d\d_\w+)',s,re.M)
        if x in deadset: fails+=[t+' (file not buildable)' for t in th]; continue
        q=f'/tmp/scratch/q.v'; open(q,'w').write(f'Require Import Verif.{x}.\n'+'\n'.join(f'Print Assumptions {t}.' for t in th))
        rc,o=sh(f'cd /tmp/scratch && coqc -w none -Q {DST}/theories Verif q.v')
        parts=re.split(r'(?=^(?:Closed under|Axioms:))',o,flags=re.M)[1:]
        if len(parts)!=len(th): fails.append(f'?? {x} {o[:300]}'); continue
        for t,a in zip(th,parts):
            if a.startswith('Axioms'): fails.append(t)
    return {'broken':broken,'dead':dead,'failed':fails,'affected':len(aff)}
ms=json.load(open(sys.argv[1])); a=int(sys.argv[2]) if len(sys.argv)>2 else 0; b=int(sys.argv[3]) if len(sys.argv)>3 else len(ms)
for i,m in enumerate(ms[a:b],a):
    t=time.time(); r=run(m)
    print(i,m['file'],m['definition'],'|',m['claim'],'|',f'{time.time()-t:.0f}s')
    if 'err' in r: print('   ERR',r['err']); continue
    miss=[e for e in m.get('expect',[]) if not any(f.startswith(e) for f in r['failed'])]
    print('   failed:',r['failed']); print('   broken:',r['broken'][:6],'dead:',r['dead'][:4])
    if miss: print('   *** EXPECTED BUT STILL PROVED:',miss)
    sys.stdout.flush()
    os.makedirs('/verif/seeded',exist_ok=True)
    open('/verif/seeded/LOG.jsonl','a').write(json.dumps({'definition':f"{m['file']}:{m['definition']}",'edit':f"{m['old']}  ==>  {m['new']}",'claim':m['claim'],'expected':m.get('expect',[]),'theorems_failed':r['failed'],'still_proved_unexpectedly':miss,'broken_lemmas':r['broken'][:12],'theorems_tightened':m.get('tightened',[])})+'\n')
