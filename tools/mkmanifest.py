"""Regenerate MANIFEST.json from the theorem names in rocq/theories/Prop*.v."""
import glob, json, re
from notes import NOTES
props=[json.loads(l) for l in open('/verif/properties.jsonl')]
th={}
for f in sorted(glob.glob('/verif/rocq/theories/Prop*.v')):
    for m in re.finditer(r'^Theorem ((C\d+)_\w+)', open(f).read(), re.M):
        th.setdefault(m.group(2), []).append(m.group(1))
claims=[]
for p in props:
    t=th.get(p['id'], [])
    n=NOTES.get(p['id'], {})
    if not t and n.get('status')!='not_applicable': continue
    st=n.get('status') or ('partial' if any(x.endswith('_partial') for x in t) else 'proved')
    claims.append(dict(property=p['id'], status=st, theorems=t, note=n.get('note', '')))
json.dump({'claims': claims}, open('/verif/MANIFEST.json','w'), indent=1)
print(len(claims), 'claims of', len(props), 'missing', [p['id'] for p in props if p['id'] not in th])
unknown=set(th)-{p['id'] for p in props}
assert not unknown, unknown
