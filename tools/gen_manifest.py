#!/usr/bin/env python3
"""Regenerates MANIFEST.json and rocq/theories/Assumptions.v from theorem names C<nn>_*."""
import re, glob, json, os
root = os.path.dirname(os.path.dirname(os.path.abspath(__file__)))
props = [json.loads(l) for l in open(root + '/properties.jsonl')]
notes = json.load(open(root + '/tools/notes.json')) if os.path.exists(root + '/tools/notes.json') else {}
proj = re.findall(r'theories/(\w+)\.v', open(root + '/rocq/_CoqProject').read())
found = {}
mods = []
for m in proj:
    if not m.startswith('Props_'): continue
    mods.append(m)
    s = open(f'{root}/rocq/theories/{m}.v').read()
    for n in re.findall(r'^(?:Theorem|Lemma|Corollary)\s+(C\d\d_\w+)', s, re.M):
        found.setdefault(n[:3], []).append(n)
claims = []
for p in props:
    i = p['id']; th = found.get(i, [])
    if not th: continue
    nt = notes.get(i, {})
    claims.append({"property": i, "status": nt.get("status", "proved"),
                   "theorems": th, "note": nt.get("note", "")})
json.dump({"claims": claims}, open(root + '/MANIFEST.json', 'w'), indent=1)
with open(root + '/rocq/theories/Assumptions.v', 'w') as f:
    f.write('(** Generated by tools/gen_manifest.py: prints the axioms under every claimed theorem. *)\n')
    f.write('From Verif Require Import ' + ' '.join(mods) + '.\n')
    f.write('(* Every claimed theorem is a component of one of the tuples below, so what is printed for a tuple covers each of its theorems. *)\n')
    ts = [t for c in claims for t in c['theorems']]
    for i in range(0, len(ts), 60):
        f.write(f'Definition claims_{i // 60} := (\n  ' + ',\n  '.join('@' + t for t in ts[i:i + 60]) + f').\nPrint Assumptions claims_{i // 60}.\n')
print(len(claims), 'claims;', 'missing', [p['id'] for p in props if p['id'] not in found])
