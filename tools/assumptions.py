#!/usr/bin/env python3
# What Print Assumptions lists for every theorem of the MANIFEST; writes tools/assumptions.json (needs a compiled /verif/rocq).
import json, os, re, subprocess
V='/verif'; T=V+'/rocq/theories'
thms=sorted({t for c in json.load(open(V+'/MANIFEST.json'))['claims'] for t in c['theorems']})
where={}
for f in sorted(os.listdir(T)):
    if f.endswith('.v'):
        for m in re.finditer(r'^\s*(?:Theorem|Lemma|Corollary)\s+([\w\']+)', open(f'{T}/{f}').read(), re.M): where.setdefault(m.group(1), f[:-2])
s=''.join(f'Require Verif.{f}.\n' for f in sorted({where[t] for t in thms}))
for t in thms: s+=f'Check "@@{t}"%string.\nPrint Assumptions Verif.{where[t]}.{t}.\n'
open('/tmp/assum.v','w').write('Require Import Coq.Strings.String.\n'+s)
out=subprocess.run(['coqc','-Q','.','Verif','/tmp/assum.v'],cwd=T,capture_output=True,text=True)
print(out.stderr[-500:])
res={}; cur=None
for l in out.stdout.split('\n'):
    m=re.match(r'"@@(.*?)"',l)
    if m: cur=m.group(1); res[cur]=[]; continue
    m=re.match(r'^([A-Za-z_][\w.\']*)\s*(:.*)?$',l)
    if cur and m and l not in('Axioms:',) and not l.startswith('Closed') and not l.startswith('Axioms') : res[cur].append(m.group(1))
json.dump({'where':{t:where[t] for t in thms},'axioms':res},open(V+'/tools/assumptions.json','w'),indent=0)
from collections import Counter
print(len(res),Counter(tuple(sorted(v)) for v in res.values()))
