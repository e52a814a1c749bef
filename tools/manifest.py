"""Write MANIFEST.json from the theorem names in Properties/*.v and tools/notes.json."""
import glob, json, os, re
root = os.path.dirname(os.path.dirname(os.path.abspath(__file__)))
props = [json.loads(l)['id'] for l in open(root + '/properties.jsonl')]
notes = json.load(open(root + '/tools/notes.json'))
thms = {}
for f in sorted(glob.glob(root + '/rocq/theories/Properties/*.v')):
    for m in re.finditer(r'^Theorem (C\d+)_(\w+)', open(f).read(), re.M):
        thms.setdefault(m.group(1), []).append(m.group(1) + '_' + m.group(2))
claims = []
for p in props:
    t = thms.get(p, [])
    n = notes.get(p, {})
    if isinstance(n, str):
        n = {'note': n}
    status = n.get('status') or ('partial' if not t or any(x.endswith('_partial') for x in t) or
                                 any('refuted' in x for x in t) else 'proved')
    claims.append({'property': p, 'status': status, 'theorems': t, 'note': n.get('note', '' if t else 'not proved yet')})
json.dump({'claims': claims}, open(root + '/MANIFEST.json', 'w'), indent=1)
from collections import Counter
print(Counter(c['status'] for c in claims), [c['property'] for c in claims if not c['theorems']])
