#!/usr/bin/env python3
"""usage: manifest_add.py ID STATUS THEOREM[,THEOREM...] NOTE  -- insert or replace a claim in MANIFEST.json"""
import json, sys
i, st, th, note = sys.argv[1:5]
m = json.load(open('/verif/MANIFEST.json'))
m['claims'] = [c for c in m['claims'] if c['property'] != i]
m['claims'].append({'property': i, 'status': st, 'theorems': [t for t in th.split(',') if t], 'note': note})
m['claims'].sort(key=lambda c: c['property'])
with open('/verif/MANIFEST.json', 'w') as f:
    f.write('{"claims": [\n' + ',\n'.join(' ' + json.dumps(c) for c in m['claims']) + '\n]}\n')
