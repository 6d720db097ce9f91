import json,re,glob,collections
notes=json.load(open('/tmp/w/notes.json'))
props=[json.loads(l)['id'] for l in open('/verif/properties.jsonl')]
th=collections.defaultdict(list)
for f in open('/verif/rocq/_CoqProject').read().split():
    if f.endswith('.v') and '/Props' in f:
        for m in re.finditer(r'^Theorem (C\d\d\w*)',open('/verif/rocq/'+f).read(),re.M): th[re.match(r'C\d+',m.group(1)).group(0)].append(m.group(1))
out=[]
for p in props:
    n=notes.get(p,{})
    t=th.get(p,[])
    st=n.get('status') or ('proved' if t and not any(x.endswith(('_partial','_refuted')) for x in t) else 'partial')
    out.append({"property":p,"status":st,"theorems":t,"note":n.get('note','' if t else 'not yet modelled')})
json.dump({"claims":out},open('/verif/MANIFEST.json','w'),indent=1)
for o in out: print(o['property'],o['status'],len(o['theorems']))
