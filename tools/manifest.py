#!/usr/bin/env python3
"""Regenerates MANIFEST.json: theorem names are collected from rocq/theories/Properties_*.v by their Cnn prefix;
status and note come from tools/status.json."""
import json, re, glob, os
root = os.path.dirname(os.path.dirname(os.path.abspath(__file__)))
props = [json.loads(l)["id"] for l in open(root + "/properties.jsonl")]
st = json.load(open(root + "/tools/status.json"))
thms = {}
for f in sorted(glob.glob(root + "/rocq/theories/Properties_*.v")):
    for m in re.finditer(r"^(?:Theorem|Corollary)\s+((?:C\d+_)+\w*)", open(f).read(), re.M):
        for c in re.findall(r"C\d+(?=_)", m.group(1)):
            thms.setdefault(c, []).append(m.group(1))
claims = []
for p in props:
    if p in thms:
        s = st.get(p, {})
        claims.append({"property": p, "status": s.get("status", "partial"), "theorems": thms[p], "note": s.get("note", "")})
    elif p in st and st[p].get("status") == "not_applicable":
        claims.append({"property": p, "status": "not_applicable", "theorems": [], "note": st[p]["note"]})
json.dump({"claims": claims}, open(root + "/MANIFEST.json", "w"), indent=1)
print(len(claims), "claims;", "missing:", [p for p in props if p not in [c["property"] for c in claims]])
