#!/usr/bin/env python3
# Writes MANIFEST.json from rocq/theories/Prop*.v and tools/status.json ({id: [status, note]}).
import re,json,glob,os
root=os.path.dirname(os.path.dirname(os.path.abspath(__file__)))
ths={}
for f in sorted(glob.glob(root+'/rocq/theories/Prop*.v')):
    for m in re.finditer(r'^(?:Theorem|Corollary) (C\d\d\w*)',open(f).read(),re.M):
        ths.setdefault(m.group(1).split('_')[0],[]).append((os.path.basename(f)[:-2],m.group(1)))
st=json.load(open(root+'/tools/status.json'))
claims=[]
for line in open(root+'/properties.jsonl'):
    p=json.loads(line)['id']
    if p not in ths: continue
    status,note=st.get(p,['proved',''])
    claims.append({"property":p,"status":status,"theorems":[n for _,n in ths[p]],"note":note+(' ' if note else '')+'File: '+', '.join(sorted({f+'.v' for f,_ in ths[p]}))})
json.dump({"claims":claims},open(root+'/MANIFEST.json','w'),indent=1)
print(len(claims),'claims')
