import json,re,glob,sys
# theorems named Cxx_...
thms={}
for f in sorted(glob.glob('/verif/rocq/theories/Props_*.v')):
    for m in re.finditer(r'^Theorem (C(\d\d)_\w+)',open(f).read(),re.M):
        thms.setdefault('C'+m.group(2),[]).append(m.group(1))
notes=json.load(open('/verif/tools/notes.json'))
props=[json.loads(l) for l in open('/verif/properties.jsonl')]
claims=[]
for p in props:
    i=p['id']; t=thms.get(i,[])
    n=notes.get(i,{})
    st=n.get('status') or ('proved' if t else 'partial')
    claims.append({"property":i,"status":st,"theorems":t,"note":n.get('note','') or ('' if t else 'not yet proved')})
json.dump({"claims":claims},open('/verif/MANIFEST.json','w'),indent=1)
print({s:sum(c['status']==s for c in claims) for s in ('proved','partial','not_applicable')}, [c['property'] for c in claims if not c['theorems']])
