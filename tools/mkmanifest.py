#!/usr/bin/env python3
"""Write MANIFEST.json: the claims below, in property order."""
import json, pathlib, re, sys
root = pathlib.Path(__file__).resolve().parent.parent
exec((root / 'tools' / 'claims.py').read_text())
props = [json.loads(l)['id'] for l in (root / 'properties.jsonl').read_text().splitlines() if l.strip()]
src = ''.join(p.read_text() for p in (root / 'rocq' / 'theories').glob('P*.v'))
names = set(re.findall(r'^(?:Theorem|Lemma)\s+(\w+)', src, re.M))
out = []
for p in props:
    if p not in CLAIMS:
        print('no claim for', p, file=sys.stderr)
        continue
    status, ths, note = CLAIMS[p]
    for t in ths:
        assert t in names, t
    out.append({'property': p, 'status': status, 'theorems': ths, 'note': note})
(root / 'MANIFEST.json').write_text(json.dumps({'claims': out}, indent=1) + '\n')
claimed = {t for c in out for t in c['theorems']}
extra = sorted(n for n in names if re.match(r'C\d\d', n) and n not in claimed)
if extra:
    print('theorems in no claim:', extra, file=sys.stderr)
