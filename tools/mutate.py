#!/usr/bin/env python3
# Runs the wrong programs of mutants.json: each is one textual edit of a model file, in a scratch copy. Appends to /verif/seeded/LOG.jsonl.
import json, os, re, shutil, subprocess, sys
V='/verif'; S='/tmp/mut'; BASE=os.environ.get('BASE',V+'/rocq')
muts=json.load(open(V+'/tools/mutants.json'))
man={c['property']:c for c in json.load(open(V+'/MANIFEST.json'))['claims']}
where={}
for f in os.listdir(V+'/rocq/theories'):
    if f.endswith('.v'):
        for m in re.finditer(r'^\s*(?:Theorem|Lemma|Corollary)\s+([\w\']+)', open(f'{V}/rocq/theories/{f}').read(), re.M): where.setdefault(m.group(1), f)
done=set()
log=V+'/seeded/LOG.jsonl'
if os.path.exists(log):
    for l in open(log):
        if l.strip(): done.add(json.loads(l)['id'])
sel=set(sys.argv[1:])
for m in muts:
    if sel and m['id'] not in sel: continue
    if not sel and m['id'] in done: continue
    subprocess.run(['rm','-rf',S]); subprocess.run(['cp','-a',BASE,S])
    p=f"{S}/theories/{m['file']}"; t=open(p).read()
    if t.count(m['old'])!=m.get('count',1): print(m['id'],'BAD EDIT',t.count(m['old'])); continue
    open(p,'w').write(t.replace(m['old'],m['new']))
    thms=[x for c in m['claims'] for x in man[c]['theorems']]
    targets=sorted({'theories/'+where[x]+'o' for x in thms})
    subprocess.run('coq_makefile -f _CoqProject -o Makefile >/dev/null 2>&1',shell=True,cwd=S)
    try:
        r=subprocess.run('ulimit -v 8000000; timeout 1500 make -k -j3 '+' '.join(targets),shell=True,cwd=S,capture_output=True,text=True)
        out=r.stdout+r.stderr
    except Exception as e: out=str(e)
    fails=[]
    for g in re.finditer(r'File "\./?(theories/\S+?\.v)", line (\d+)[^\n]*\nError',out):
        src=open(f'{S}/{g.group(1)}').read().split('\n')[:int(g.group(2))]
        nm='?'
        for line in reversed(src):
            k=re.match(r'\s*(?:Global |Local |#\[\w+\] )?(?:Theorem|Lemma|Corollary|Example|Fact|Definition|Fixpoint|Instance)\s+([\w\']+)',line)
            if k: nm=k.group(1); break
        fails.append(g.group(1).split('/')[-1]+':'+nm)
    built={x for x in thms if os.path.exists(f"{S}/theories/{where[x]}o") and os.path.getmtime(f"{S}/theories/{where[x]}o")>=os.path.getmtime(p)-1 and 1}
    # a .vo that make refused to rebuild is stale: compare with make -q
    dead=[]
    for x in thms:
        q=subprocess.run(['make','-q','theories/'+where[x]+'o'],cwd=S,capture_output=True)
        if q.returncode!=0: dead.append(x)
    d={'id':m['id'],'definition':m['file'][:-2]+'.'+m['def'],'edit':m['edit'],'claims_broken':m['claims'],'claim':m['claim'],'failed_proofs':fails,'theorems_failed':dead,'theorems_still_proved':[x for x in thms if x not in dead],'theorems_tightened':[]}
    print(m['id'],fails,'ALIVE:',d['theorems_still_proved'],flush=True)
    open(log,'a').write(json.dumps(d)+'\n')
