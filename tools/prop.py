"""Set or add property records: prop.py < lines of JSON (partial records merge by id)."""
import json, sys, os
p = os.path.join(os.path.dirname(__file__), '..', 'properties.jsonl')
L = [json.loads(l) for l in open(p)]
d = {x['id']: x for x in L}
for line in sys.stdin:
    if line.strip():
        r = json.loads(line)
        if r['id'] in d:
            d[r['id']].update(r)
        else:
            L.append(r)
            d[r['id']] = r
open(p, 'w').write('\n'.join(json.dumps(x) for x in L) + '\n')
