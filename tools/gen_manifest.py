#!/usr/bin/env python3
"""MANIFEST.json from the theorems in theories/P_*.v and tools/notes.json."""
import re,glob,os,json
root=os.path.join(os.path.dirname(os.path.abspath(__file__)),'..')
props=[json.loads(l) for l in open(os.path.join(root,'properties.jsonl'))]
notes=json.load(open(os.path.join(root,'tools','notes.json')))
thms={}
for f in sorted(glob.glob(os.path.join(root,'rocq','theories','P_*.v'))):
    for m in re.finditer(r'^Theorem (C\d+)(_?\w*)',open(f).read(),re.M):
        thms.setdefault(m.group(1),[]).append(m.group(1)+m.group(2))
claims=[]
for p in props:
    i=p['id']; t=thms.get(i,[]); n=notes.get(i,{})
    if not t: st=n.get('status','not_applicable'); note=n.get('note','not yet modelled')
    else:
        st='partial' if any(x.endswith('_partial') for x in t) else 'proved'
        st=n.get('status',st)
        note=n.get('note','')
        if any('refuted' in x for x in t):
            note=('The unqualified claim is false of the code: see '+', '.join(x for x in t if 'refuted' in x)+'. '+note).strip()
    claims.append({'property':i,'status':st,'theorems':t,'note':note})
json.dump({'claims':claims},open(os.path.join(root,'MANIFEST.json'),'w'),indent=1)
print({s:sum(c['status']==s for c in claims) for s in ('proved','partial','not_applicable')})
