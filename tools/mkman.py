import json,sys,re,glob
# generate MANIFEST from Prop files: theorem names Cnn_...
props=[json.loads(l) for l in open('/verif/properties.jsonl')]
thms={}
for f in sorted(glob.glob('/verif/rocq/theories/*.v')):
    for m in re.finditer(r'^Theorem (C\d+)_(\w+)',open(f).read(),re.M):
        thms.setdefault(m.group(1),[]).append(m.group(1)+'_'+m.group(2))
notes=json.load(open('/verif/tools/notes.json')) if glob.glob('/verif/tools/notes.json') else {}
claims=[]
for p in props:
    i=p['id']
    if i in thms:
        n=notes.get(i,{})
        st=n.get('status') or ('partial' if all(t.endswith('_partial') for t in thms[i]) else 'proved')
        claims.append({"property":i,"status":st,"theorems":thms[i],"note":n.get('note','')})
json.dump({"claims":claims},open('/verif/MANIFEST.json','w'),indent=1)
print(len(claims),'claims', sum(len(c['theorems']) for c in claims))
