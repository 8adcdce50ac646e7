#!/usr/bin/env python3
"""Which functions of /repo are cited by a model definition.  Writes COVERAGE.md."""
import re, os, glob
DEF = {'Account': 'margin_account.rs', 'Base': '', 'Config': 'config.rs'}
files = {}
for p in glob.glob('/repo/**/*.rs', recursive=True):
    if '/tests/' in p or '/test' in os.path.basename(p): continue
    files[p] = open(p).read().split('\n')
# functions and their line ranges
fns = []
for p, L in sorted(files.items()):
    for i, l in enumerate(L):
        m = re.match(r'\s*(?:pub |const |async )*fn (\w+)', l)
        if m:
            ind = len(l) - len(l.lstrip())
            j = i
            while j < len(L) and not (L[j].startswith(' ' * ind + '}') and len(L[j]) - len(L[j].lstrip()) == ind): j += 1
            fns.append((p, m.group(1), i + 1, j + 1))
# citations
cites = []
for v in ['Base', 'DFloat', 'Lists', 'Types', 'Config', 'Oracle', 'Pool', 'Account', 'Fees', 'Referral', 'ExInternal', 'Exchange', 'System', 'Wrapper', 'Tools', 'Getters'] :
    s = open('/verif/rocq/theories/%s.v' % v).read()
    for m in re.finditer(r'\(\*\*(.*?)\*\)(.*?)(?=\(\*\*|\Z)', s, re.S):
        defs = re.findall(r'(?:Definition|Fixpoint|Record|Inductive) (\w+)', m.group(2))
        cur = None
        for t in re.finditer(r'([\w/]+\.rs)?[: ,]*(\d+)(?:-(\d+))?', m.group(1)):
            if t.group(1): cur = t.group(1)
            elif cur is None: continue
            a = int(t.group(2)); b = int(t.group(3) or a)
            if a > 0: cites.append((v, cur, a, b, defs))
def match(path, c):
    return path.endswith('/' + c) or path.endswith(c)
out = ['# Functions of /repo and the model definitions that cite their lines', '', '| function | lines | model definitions |', '|---|---|---|']
miss = []
for p, n, a, b in fns:
    ds = []
    for v, c, x, y, d in cites:
        if not match(p, c): continue
        if c == 'structs.rs':
            owner = {'Config': 'config/src', 'Pool': 'pool/src', 'Account': 'account/src', 'Referral': 'referral_generator', 'Exchange': 'exchange/src'}.get(v)
            if owner and owner not in p: continue
        if x <= b and a <= y: ds += ['%s.%s' % (v, z) for z in d]
    ds = list(dict.fromkeys(ds))
    if not ds: miss.append((p, n, a, b))
    out.append('| %s `%s` | %d-%d | %s |' % (p[len('/repo/'):], n, a, b, ', '.join(ds[:6]) or '-'))
open('/verif/COVERAGE.md', 'w').write('\n'.join(out) + '\n')
print(len(fns), 'functions', len(miss), 'not cited')
for m in miss: print(*m)
