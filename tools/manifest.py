#!/usr/bin/env python3
"""Regenerate MANIFEST.json from the theorems named Cxx_* in rocq/theories/Prop*.v and the notes below."""
import json,re,glob,os
root=os.path.dirname(os.path.dirname(os.path.abspath(__file__)))
NOTES=json.load(open(os.path.join(root,'tools','notes.json')))
th={}
for f in sorted(glob.glob(root+'/rocq/theories/Prop*.v')):
    for m in re.finditer(r'^Theorem (C\d\d)(_\w+)',open(f).read(),re.M):
        th.setdefault(m.group(1),[]).append(m.group(1)+m.group(2))
claims=[]
for l in open(root+'/properties.jsonl'):
    pid=json.loads(l)['id']
    n=NOTES.get(pid,{})
    if pid in th:
        claims.append({'property':pid,'status':n.get('status','proved'),'theorems':th[pid],'note':n.get('note','')})
json.dump({'claims':claims},open(root+'/MANIFEST.json','w'),indent=1)
print(len(claims),'claims; missing:',[json.loads(l)['id'] for l in open(root+'/properties.jsonl') if json.loads(l)['id'] not in th])
