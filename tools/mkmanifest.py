#!/usr/bin/env python3
# Build MANIFEST.json from the theorem names in the property files.
import re,glob,json,os
root=os.path.dirname(os.path.dirname(os.path.abspath(__file__)))
notes=json.load(open(root+'/tools/notes.json'))
thms={}
for f in sorted(glob.glob(root+'/rocq/theories/Props*.v')):
    for n in re.findall(r'^Theorem\s+(C\d+_\w+)',open(f).read(),re.M):
        thms.setdefault(n.split('_')[0],[]).append(n)
claims=[]
for l in open(root+'/properties.jsonl'):
    i=json.loads(l)['id']
    st,note=notes.get(i,["partial","not yet proved"])
    if i in thms: claims.append(dict(property=i,status=st,theorems=thms[i],note=note))
json.dump({"claims":claims},open(root+'/MANIFEST.json','w'),indent=1)
print(len(claims),"claims",sum(len(c['theorems']) for c in claims),"theorems")
