"""Seed wrong programs: apply an edit to a scratch copy of the model and see which theorems no longer prove.

usage: mutate.py edits.json [names...]
edits.json: list of {"name", "file", "old", "new", "definition", "claim", "expect": [property ids]}

A lemma whose proof fails is left unproved in the scratch copy, so that everything else is still tried; a theorem counts as
failed if its own proof fails or if Print Assumptions shows that it rests on a failed lemma. With NEAR set in the environment
the files of the properties in "near" (or "expect") are tried first; the others only if all of those still prove.
"""
import json, os, re, shutil, subprocess, sys

ROOT = os.path.dirname(os.path.dirname(os.path.abspath(__file__)))
START = re.compile(r'^\s*(?:Local |Global |#\[.*\] )*(Lemma|Theorem|Example|Corollary|Fact|Remark|Definition|Fixpoint)\s+(\w+)', re.M)


def files(root):
    return [l.strip()[len('theories/'):] for l in open(root + '/rocq/_CoqProject') if l.strip().endswith('.v')]


def deps(d, order):
    out = {}
    for f in order:
        src = open(f'{d}/{f}').read()
        names = set(re.findall(r'\w+', ' '.join(re.findall(r'From Verif Require (?:Import|Export)?([^.]*)\.', src))))
        out[f] = [g for g in order if g[:-2] in names]
    return out


def topo(order, dep):
    done, res = set(), []
    def visit(f):
        if f in done:
            return
        done.add(f)
        for g in dep[f]:
            visit(g)
        res.append(f)
    for f in order:
        visit(f)
    return res


def compile(d, f):
    """compile one file, leaving failing proofs open; returns (ok, failed names, output)"""
    failed = []
    for _ in range(200):
        p = subprocess.run(['timeout', '600', 'coqc', '-Q', '.', 'Verif', f], cwd=d, stdout=subprocess.PIPE, stderr=subprocess.STDOUT, text=True)
        if p.returncode == 0:
            return True, failed, p.stdout
        src = open(f'{d}/{f}').read()
        if p.returncode == 124:
            # a proof that no longer ends: find it by the last sentence that was finished
            p = subprocess.run(['timeout', '120', 'coqc', '-time', '-Q', '.', 'Verif', f], cwd=d, stdout=subprocess.PIPE, stderr=subprocess.STDOUT, text=True)
            done = re.findall(r'^Chars \d+ - (\d+) ', p.stdout, re.M)
            off = len(src.encode()[:int(done[-1]) + 2].decode(errors='ignore')) if done else 0
        else:
            m = re.search(r'File "\./([^"]*)", line (\d+), characters (\d+)-\d+:\s*\nError', p.stdout)
            if not m:
                return False, failed, p.stdout
            lines = src.split('\n')
            off = sum(len(l) + 1 for l in lines[:int(m.group(2)) - 1])
            off = len(src.encode()[:len(src[:off].encode()) + int(m.group(3))].decode(errors='ignore'))
        starts = [s for s in START.finditer(src) if s.start() <= off]
        if not starts:
            return False, failed, p.stdout
        if starts[-1].group(1) in ('Definition', 'Fixpoint'):
            # only those with a proof script are lemmas
            if 'Proof.' not in src[starts[-1].start():off]:
                return False, failed, p.stdout
        s = starts[-1]
        q = re.compile(r'\n?\s*Proof\.').search(src, s.start())
        e = re.compile(r'\b(Qed|Defined|Abort|Admitted)\.').search(src, s.start())
        if not q or not e or q.start() > e.start() or off < q.start():
            # the statement itself no longer typechecks
            failed.append(s.group(2))
            src = src[:s.start()] + '\n' + (src[e.end():] if e else '')
            src = re.sub(r'Print Assumptions %s\.' % s.group(2), '', src)
        else:
            failed.append(s.group(2))
            src = src[:q.start()] + ' Proof. Admitted.' + src[e.end():]
        open(f'{d}/{f}', 'w').write(src)
    return False, failed, 'too many'


def near(d, order, dep, ids):
    """the files needed for the theorems about some properties"""
    todo = [f for f in order if f.endswith('_Props.v') and any(re.search(r'^Theorem %s_' % i, open(f'{d}/{f}').read(), re.M) for i in ids)]
    res = set()
    while todo:
        f = todo.pop()
        if f not in res:
            res.add(f)
            todo += dep[f]
    return res


def run(m, scratch):
    if os.path.exists(scratch):
        shutil.rmtree(scratch)
    shutil.copytree(ROOT + '/rocq', scratch)
    d = scratch + '/theories'
    order = files(ROOT)
    dep = deps(d, order)
    order = topo(order, dep)
    src = open(f"{d}/{m['file']}").read()
    n = src.count(m['old'])
    if n != 1:
        return {'error': f'old text occurs {n} times'}
    open(f"{d}/{m['file']}", 'w').write(src.replace(m['old'], m['new']))
    dirty = {m['file']}
    bad, lemmas, thms, broken = set(), [], [], []
    if os.environ.get('NEAR'):
        first = near(d, order, dep, m.get('near', m.get('expect', [])))
        order = [f for f in order if f in first] + [None] + [f for f in order if f not in first]
    for f in order:
        if f is None:
            if thms:
                break
            continue
        if f not in dirty and not any(g in dirty for g in dep[f]):
            continue
        dirty.add(f)
        if any(g in bad for g in dep[f]):
            bad.add(f)
            broken.append(f)
            continue
        ok, failed, out = compile(d, f)
        lemmas += failed
        if not ok:
            bad.add(f)
            broken.append(f + ': ' + out[-300:])
            continue
        if f.endswith('_Props.v'):
            names = re.findall(r'^Print Assumptions (\w+)\.', open(f'{d}/{f}').read(), re.M)
            # coqc prints one block per Print Assumptions
            blocks = re.split(r'(?=^Closed under the global context|^Axioms:)', out, flags=re.M)
            blocks = [b for b in blocks if b.startswith(('Closed', 'Axioms'))]
            if len(names) == len(blocks):
                for nme, b in zip(names, blocks):
                    if b.startswith('Axioms'):
                        thms.append(nme)
            else:
                broken.append(f'{f}: {len(names)} names, {len(blocks)} blocks')
            thms += [x for x in failed if re.match(r'C\d\d', x) and x not in thms]
    return {'failed': thms, 'lemmas': lemmas, 'broken_files': broken}


if __name__ == '__main__':
    edits = json.load(open(sys.argv[1]))
    only = sys.argv[2:]
    for m in edits:
        if only and m['name'] not in only:
            continue
        r = run(m, os.environ.get('MUT', '/tmp/mut'))
        ids = sorted({t.split('_')[0] for t in r.get('failed', [])})
        missed = [i for i in m.get('expect', []) if i not in ids]
        print(json.dumps({'name': m['name'], **r, 'missed': missed}), flush=True)
