"""Update or append lines of properties.jsonl: set_props.py updates.json (a list of objects with an id)."""
import json, os, sys
root = os.path.dirname(os.path.dirname(os.path.abspath(__file__)))
path = root + '/properties.jsonl'
props = [json.loads(l) for l in open(path)]
for u in json.load(open(sys.argv[1])):
    for p in props:
        if p['id'] == u['id']:
            p.update(u)
            break
    else:
        props.append(u)
props.sort(key=lambda p: int(p['id'][1:]))
with open(path, 'w') as o:
    for p in props:
        o.write(json.dumps(p) + '\n')
