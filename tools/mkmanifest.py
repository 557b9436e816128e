#!/usr/bin/env python3
"""Writes /verif/MANIFEST.json from the theorem names in Properties_*.v and the notes below."""
import json,re,glob,os
here=os.path.dirname(os.path.abspath(__file__))
names={}
for f in sorted(glob.glob(here+'/../rocq/theories/Properties_*.v')):
    for m in re.finditer(r'^Theorem\s+(C(\d\d)_\w+)',open(f).read(),re.M):
        names.setdefault('C'+m.group(2),[]).append(m.group(1))
# property -> (status, note)
from notes import NOTES
claims=[]
ids=[json.loads(l)['id'] for l in open(here+'/../properties.jsonl')]
for i in ids:
    if i not in names and i not in NOTES: continue
    st,note=NOTES.get(i,('proved',''))
    claims.append(dict(property=i,status=st,theorems=names.get(i,[]),note=note))
json.dump({'claims':claims},open(here+'/../MANIFEST.json','w'),ensure_ascii=False,indent=1)
print(len(claims),'claims; without:',[i for i in ids if i not in names and i not in NOTES])
