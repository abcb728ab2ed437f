"""Write seeded/LOG.jsonl from the outputs of mutate.py.

usage: mk_log.py edits.json out.jsonl [out.jsonl ...]   (appends the attempts that are not logged yet;
edits that are not well-typed are left out)
tools/tightened.json maps the name of an attempt to the theorems added or strengthened because of it; those of attempts
logged before are updated.
"""
import json, os, sys

ROOT = os.path.dirname(os.path.dirname(os.path.abspath(__file__)))
LOG = ROOT + '/seeded/LOG.jsonl'
edits = {e['name']: e for e in json.load(open(sys.argv[1]))}
tight = json.load(open(ROOT + '/tools/tightened.json'))
logged = {json.loads(l)['name'] for l in open(LOG)} if os.path.exists(LOG) else set()
old = [json.loads(l) for l in open(LOG)] if os.path.exists(LOG) else []
with open(LOG, 'w') as log:
    for o in old:
        o['tightened'] = tight.get(o['name'], o['tightened'])
        log.write(json.dumps(o) + '\n')
    for f in sys.argv[2:]:
        for l in open(f):
            if not l.strip():
                continue
            o = json.loads(l)
            e = edits[o['name']]
            if o['name'] in logged or 'failed' not in o or any('_Model.v:' in b for b in o['broken_files']):
                continue
            logged.add(o['name'])
            log.write(json.dumps({
                'name': o['name'], 'file': e['file'], 'definition': e['definition'],
                'edit': {'old': e['old'], 'new': e['new']}, 'claim': e['claim'],
                'failed': o['failed'], 'files_not_compiling': [b.split(':')[0] for b in o['broken_files']],
                'tightened': tight.get(o['name'], [])}) + '\n')
