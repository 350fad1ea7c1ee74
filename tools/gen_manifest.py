#!/usr/bin/env python3
"""Regenerates MANIFEST.json: theorem names are collected from rocq/theories/Props*.v."""
import re,glob,json,os
root=os.path.dirname(os.path.dirname(os.path.abspath(__file__)))
thms={}
for f in sorted(glob.glob(root+'/rocq/theories/Props*.v')):
    for m in re.finditer(r'^\s*Theorem ((C\d+)_\w+)',open(f).read(),re.M):
        thms.setdefault(m.group(2),[]).append(m.group(1))
st=json.load(open(root+'/tools/status.json'))
ids=[json.loads(l)['id'] for l in open(root+'/properties.jsonl') if l.strip()]
claims=[]
for i in ids:
    if i in thms:
        s,n=st.get(i,["proved",""])
        claims.append({"property":i,"status":s,"theorems":thms[i],"note":n})
    elif i in st and st[i][0]=="not_applicable":
        claims.append({"property":i,"status":"not_applicable","theorems":[],"note":st[i][1]})
    else: print("no theorem for",i)
json.dump({"claims":claims},open(root+'/MANIFEST.json','w'),indent=1)
print(len(claims),"claims",sum(len(c['theorems']) for c in claims),"theorems")
