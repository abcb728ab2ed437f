"""Regenerate MANIFEST.json from the theorem names in rocq/theories/*_Props.v and tools/notes.json."""
import glob, json, os, re
root = os.path.dirname(os.path.dirname(os.path.abspath(__file__)))
thms = {}
order = [l.strip() for l in open(root + '/rocq/_CoqProject') if l.strip().endswith('.v')]
for f in order:
    src = open(f'{root}/rocq/{f}').read()
    if not f.endswith('_Props.v'):
        continue
    for m in re.finditer(r'^Theorem (C\d\d+)_(\w+)', src, re.M):
        thms.setdefault(m.group(1), []).append(f'{m.group(1)}_{m.group(2)}')
notes = json.load(open(root + '/tools/notes.json'))
ids = [json.loads(l)['id'] for l in open(root + '/properties.jsonl')]
claims = []
for i in ids:
    if i not in thms and i not in notes:
        continue
    n = notes.get(i, {})
    claims.append({'property': i, 'status': n.get('status', 'proved'), 'theorems': thms.get(i, []), 'note': n.get('note', '')})
with open(root + '/MANIFEST.json', 'w') as o:
    o.write('{"claims": [\n' + ',\n'.join(json.dumps(c) for c in claims) + '\n]}\n')
print(len(claims), 'of', len(ids), 'missing', [i for i in ids if i not in thms])
