"""Helper: python3 manifest.py C01 proved thmA,thmB "note" updates MANIFEST.json."""
import json, sys
p = '/verif/MANIFEST.json'
d = json.load(open(p))
pid, st, th, note = sys.argv[1:5]
d['claims'] = [c for c in d['claims'] if c['property'] != pid]
d['claims'].append({"property": pid, "status": st, "theorems": [t for t in th.split(',') if t], "note": note})
d['claims'].sort(key=lambda c: c['property'])
json.dump(d, open(p, 'w'), indent=1)
