#!/usr/bin/env python3
# usage: mutlog.py out.jsonl [tightened.json]  -- append mutation records to seeded/LOG.jsonl
import json,sys,os,re
root=os.path.join(os.path.dirname(os.path.abspath(__file__)),'..')
tight=json.load(open(sys.argv[2])) if len(sys.argv)>2 else {}
log=os.path.join(root,'seeded','LOG.jsonl')
have=set()
for l in open(log):
    if l.strip(): r=json.loads(l); have.add((r['definition'],r['edit'],r['claim']))
f=open(log,'a')
for l in open(sys.argv[1]):
    r=json.loads(l)
    if (r['definition'],r['edit'],r['claim']) in have: continue
    if r['fails'] is None: continue
    fails=[f"{b} ({a})" for a,b in r['fails']]
    blocked=r['info'][1] if isinstance(r['info'],list) else []
    ids=re.findall(r'C\d\d',r['claim'].split(':')[0])
    thms=[]
    for p in blocked:
        s=open(os.path.join(root,'rocq','theories',p+'.v')).read()
        thms+= [t for t in re.findall(r'^Theorem (C\d\d\w*)',s,re.M) if t[:3] in ids]
    survived = not r['fails'] and not (r['info'] and r['info'][0])
    rec=dict(definition=r['definition'],edit=r['edit'],claim=r['claim'],theorems_failed=fails,theorems_no_longer_provable=thms,
             outcome='survived' if survived else 'killed',theorems_tightened=tight.get(r['edit'],tight.get(r['definition'],[])) if survived else [])
    f.write(json.dumps(rec)+'\n')
