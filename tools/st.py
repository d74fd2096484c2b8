#!/usr/bin/env python3
# usage: st.py ID status note   -- update tools/status.json, then regenerate MANIFEST.json
import json,sys,subprocess,os
p=os.path.join(os.path.dirname(__file__),'status.json')
d=json.load(open(p))
a=sys.argv[1:]
while a:
    d[a[0]]={'status':a[1],'note':a[2]}; a=a[3:]
json.dump(d,open(p,'w'),indent=1)
subprocess.run(['python3',os.path.join(os.path.dirname(__file__),'manifest.py')])
