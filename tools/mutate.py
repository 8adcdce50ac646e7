#!/usr/bin/env python3
"""Mutation testing of the theorems.

usage: mutate.py mutants.py [id ...]

Each mutant is one textual edit of a model file.  The model is copied to
/tmp/mut, edited and rebuilt.  Whenever a proof fails, its name is recorded, the
proof is replaced (in the scratch copy only) so that the build can go on, and
the build resumes.  A property theorem counts as failed when its own proof fails
or when it uses, directly or not, a lemma whose proof failed (dependencies are
read from the .glob files of the unmutated build).  The build stops early once
every expected property has failed.
"""
import sys, os, re, subprocess, json, shutil, collections
SRC = os.environ.get('MUTSRC', '/verif/rocq')
MUT = os.environ.get('MUTDIR', '/tmp/mut/rocq')
LOG = '/verif/seeded/LOG.jsonl'
TH = '/theories/'
STMT = re.compile(r'^\s*(?:Local |Global |#\[[^\]]*\]\s*)?(Lemma|Theorem|Corollary|Fact|Remark|Instance|Definition|Example|Fixpoint|Let|Ltac|Record|Inductive)\s+([A-Za-z_0-9\']+)')
KIND = {'prf', 'def', 'inst', 'ind', 'constr', 'rec', 'proj', 'fix'}

def order():
    return [l.strip()[len('theories/'):-2] for l in open(SRC + '/_CoqProject') if l.startswith('theories/')]

def lemma_lines(f, root):
    """[(first line, last line, kind, name)] of each statement of a file"""
    out = []
    L = open(root + TH + f + '.v').read().split('\n')
    for i, l in enumerate(L):
        m = STMT.match(l)
        if m: out.append([i, None, m.group(1), m.group(2)])
    for a, b in zip(out, out[1:] + [[len(L)]]): a[1] = b[0] - 1
    return out, L

def graph():
    """file.name -> set of file.name it refers to"""
    g = collections.defaultdict(set)
    for f in order():
        p = SRC + TH + f + '.glob'
        if not os.path.exists(p): continue
        ll, L = lemma_lines(f, SRC)
        # byte offset -> line
        offs = [0]
        for l in L: offs.append(offs[-1] + len(l.encode()) + 1)
        import bisect
        starts = [offs[x[0]] for x in ll]
        for line in open(p, errors='replace'):
            m = re.match(r'R(\d+):\d+ Verif\.(\S+) \S+ (\S+) (\S+)', line)
            if m:
                o = int(m.group(1)); k = bisect.bisect_right(starts, o) - 1
                if k >= 0: g[f + '.' + ll[k][3]].add(m.group(2) + '.' + m.group(3))
    # a proof that calls a tactic of ours depends on the lemmas the tactic names (these leave no trace in the .glob)
    where, tacs, texts = collections.defaultdict(set), {}, []
    for f in order():
        ll, L = lemma_lines(f, SRC)
        for a, b, kind, name in ll:
            t = set(re.findall(r"[A-Za-z_][\w']*", '\n'.join(L[a:b + 1])))
            if kind == 'Ltac': tacs.setdefault(name, set()).update(t - {name})
            else: where[name].add(f + '.' + name)
            texts.append((f + '.' + name, kind, t))
    for key, kind, t in texts:
        if kind == 'Ltac': continue
        todo, seen = list(t & set(tacs)), set()
        while todo:
            x = todo.pop()
            if x in seen: continue
            seen.add(x); todo += list(tacs[x] & set(tacs))
            for y in tacs[x]: g[key] |= where.get(y, set()) - {key}
    return g

def closure(g, failed):
    rev = collections.defaultdict(set)
    for a, bs in g.items():
        for b in bs: rev[b].add(a)
    seen, todo = set(failed), list(failed)
    while todo:
        x = todo.pop()
        for y in rev[x]:
            if y not in seen: seen.add(y); todo.append(y)
    return seen

EX = set()
for _f in os.listdir(SRC + TH):
    if _f.endswith('.v'): EX |= set(re.findall(r'^Example (\w+)', open(SRC + TH + _f).read(), re.M))

def props(seen):
    return sorted({x.split('.', 1)[1] for x in seen if x.split('.', 1)[0].startswith('Props_') and re.match(r'C\d\d_', x.split('.', 1)[1]) and x.split('.', 1)[1] not in EX and not re.search(r'_ex(\d*|_\w+)$|_example', x)})

def run(m, g):
    os.makedirs(MUT, exist_ok=True)
    shutil.rmtree(MUT, ignore_errors=True); subprocess.run(['cp', '-a', SRC, MUT], check=True)
    p = MUT + TH + m['file'] + '.v'
    s = open(p).read()
    n = s.count(m['old'])
    if n < 1 or (n > 1 and 'nth' not in m):
        return {'error': 'pattern occurs %d times' % n}
    if 'nth' in m:
        parts = s.split(m['old']); k = m['nth']
        s = m['old'].join(parts[:k]) + m['new'] + m['old'].join(parts[k:])
    else:
        s = s.replace(m['old'], m['new'])
    open(p, 'w').write(s)
    direct, blocked = [], []
    want = set(m['targets'])
    for rnd in range(40):
        r = subprocess.run('nice timeout 3000 make -j%s 2>&1' % os.environ.get('J', '3'), shell=True, cwd=MUT, capture_output=True, text=True)
        errs = re.findall(r'File "\./theories/(\w+)\.v", line (\d+), characters [^\n]*\n(?:Error|[^\n]*\nError)', r.stdout)
        errs = [(f, int(n)) for f, n in errs]
        if not errs:
            if r.returncode == 0: break
            blocked.append('make rc %d: %s' % (r.returncode, r.stdout[-200:])); break
        progress = False
        for f, n in errs:
            ll, L = lemma_lines(f, MUT)
            cur = [x for x in ll if x[0] <= n - 1]
            if not cur: blocked.append(f + ':%d' % n); continue
            a, b, kind, name = cur[-1]
            key = f + '.' + name
            if key in direct: 
                if key not in blocked: blocked.append(key)
                continue
            # find Proof. ... Qed.
            body = L[a:b + 1]
            pi = next((i for i, l in enumerate(body) if re.search(r'\bProof\b', l)), None)
            qi = next((i for i, l in enumerate(body) if re.search(r'\b(Qed|Defined)\.', l) and (pi is None or i >= pi)), None)
            direct.append(key)
            if pi is None or qi is None or a + pi > n - 1 or kind in ('Definition', 'Fixpoint', 'Record', 'Inductive', 'Ltac'):
                blocked.append(key); continue
            pre = re.sub(r'\bProof\b.*', '', body[pi])
            post = re.sub(r'.*\b(Qed|Defined)\.', '', body[qi])
            # keep a Set Keyed/Opaque line etc. after Qed
            L[a + pi:a + qi + 1] = [pre + 'Proof. Admitted.' + post] + [''] * (qi - pi)
            open(MUT + TH + f + '.v', 'w').write('\n'.join(L))
            progress = True
        seen = closure(g, direct)
        ids = {x[:3] for x in props(seen)}
        if want <= ids and not m.get('full'): break
        if not progress: break
    seen = closure(g, direct)
    ps = props(seen)
    dp = sorted({x.split('.', 1)[1] for x in direct})
    return {'direct': dp, 'props': ps, 'blocked': blocked, 'missing': sorted(want - {x[:3] for x in ps})}

def main():
    ns = {}
    exec(open(sys.argv[1]).read(), ns)
    sel = sys.argv[2:]
    g = graph()
    done = set()
    if os.path.exists(LOG):
        done = {json.loads(l)['id'] for l in open(LOG) if l.strip()}
    for m in ns['MUTANTS']:
        if sel and m['id'] not in sel: continue
        if not sel and m['id'] in done: continue
        r = run(m, g)
        if 'error' in r: print(m['id'], 'ERROR', r['error'], flush=True); continue
        rec = {'id': m['id'], 'definition': m['file'] + '.v: ' + m['definition'], 'edit': m['edit'],
               'claim': m['claim'], 'expected': sorted(m['targets']),
               'first_failing': r['direct'], 'theorems_failed': [x for x in r['props'] if x[:3] in m['targets']],
               'other_theorems_failed': len([x for x in r['props'] if x[:3] not in m['targets']]),
               'survived': r['missing'], 'tightened': m.get('tightened', [])}
        print(m['id'], 'missing', r['missing'], 'direct', r['direct'][:4], 'blocked', r['blocked'][:3], flush=True)
        open('/tmp/b/mut_raw.jsonl', 'a').write(json.dumps(dict(rec, blocked=r['blocked'])) + '\n')
        if not r['missing']:
            open(LOG, 'a').write(json.dumps(rec) + '\n')
main()
