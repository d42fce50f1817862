#!/usr/bin/env python3
"""Write MANIFEST.json from tools/claims.json, checking that every theorem it
names exists in a Prop_*.v file and that every theorem there is claimed."""
import json, re, glob, sys, os
root = os.path.dirname(os.path.dirname(os.path.abspath(__file__)))
claims = json.load(open(os.path.join(root, 'tools', 'claims.json')))
have = set()
for f in glob.glob(os.path.join(root, 'rocq/theories/Prop_*.v')):
    for m in re.finditer(r'^Theorem (\w+)', open(f).read(), re.M):
        have.add(m.group(1))
ids = [json.loads(l)['id'] for l in open(os.path.join(root, 'properties.jsonl'))]
out, used = [], set()
for i in ids:
    c = claims.get(i)
    thms = sorted(t for t in have if t.startswith(i + '_'))
    used.update(thms)
    if c is None:
        print('no claim for', i); continue
    out.append({"property": i, "status": c[0], "theorems": thms, "note": c[1]})
    if c[0] != 'not_applicable' and not thms:
        print('no theorem for', i)
for t in sorted(have - used):
    print('unclaimed theorem', t)
json.dump({"claims": out}, open(os.path.join(root, 'MANIFEST.json'), 'w'), indent=1)
