#!/usr/bin/env python3
# Regenerates MANIFEST.json: the theorems of property Cnn are those named Cnn_* in the *Props.v files.
import re,glob,json,os
root=os.path.join(os.path.dirname(os.path.abspath(__file__)),'..')
thms={}
for f in sorted(glob.glob(root+'/rocq/theories/*Props*.v')):
    mod=os.path.basename(f)[:-2]
    for m in re.finditer(r'^Theorem ((C\d+)_\w+)',open(f).read(),re.M):
        thms.setdefault(m.group(2),[]).append(m.group(1))
notes=json.load(open(root+'/tools/notes.json'))
claims=[]
for l in open(root+'/properties.jsonl'):
    p=json.loads(l); i=p['id']; t=thms.get(i,[])
    n=notes.get(i,{})
    st=n.get('status') or ('proved' if t else 'partial')
    claims.append(dict(property=i,status=st,theorems=t,note=n.get('note','' if t else 'in progress: no theorem yet')))
json.dump({'claims':claims},open(root+'/MANIFEST.json','w'),indent=1)
print(sum(len(c['theorems']) for c in claims),'theorems;',sum(1 for c in claims if c['theorems']),'of',len(claims),'properties')
