import json,re,glob
th={}
for f in sorted(glob.glob('/verif/rocq/theories/Properties*.v')):
    for m in re.finditer(r'^Theorem (C\d\d)(\w*)',open(f).read(),re.M):
        th.setdefault(m.group(1),[]).append(m.group(1)+m.group(2))
notes=json.load(open('/verif/tools/notes.json'))
ids=[json.loads(l)['id'] for l in open('/verif/properties.jsonl')]
claims=[]
for i in ids:
    n=notes.get(i,{})
    if i in th:
        st=n.get('status','proved')
        claims.append({"property":i,"status":st,"theorems":th[i],"note":n.get('note','')})
    else:
        claims.append({"property":i,"status":"partial","theorems":[],"note":n.get('note','Not modelled yet.')})
json.dump({"claims":claims},open('/verif/MANIFEST.json','w'),indent=1)
print(len(claims),sum(c['status']=='proved' for c in claims))
