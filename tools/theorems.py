"""Writes THEOREMS.md: for each property its English statement and the theorems as they stand in the sources."""
import glob, json, os, re

ROOT = os.path.dirname(os.path.dirname(os.path.abspath(__file__)))
props = [json.loads(l) for l in open(os.path.join(ROOT, 'properties.jsonl'))]
claims = {c['property']: c for c in json.load(open(os.path.join(ROOT, 'MANIFEST.json')))['claims']}
where = {}
for f in sorted(glob.glob(os.path.join(ROOT, 'rocq/theories/P_*.v'))):
    s = open(f).read()
    for m in re.finditer(r'^[ ]*Theorem (C\d\d+_\w+)', s, re.M):
        end = re.search(r'^\s*Proof\b', s[m.start():], re.M)
        text = s[m.start():m.start() + end.start()].rstrip()
        pad = len(text) - len(text.lstrip())
        text = '\n'.join(l[pad:] if l[:pad].isspace() or pad == 0 else l for l in text.split('\n'))
        where[m.group(1)] = (os.path.basename(f), s.count('\n', 0, m.start()) + 1, text)
out = ['# The theorems, property by property', '',
       'Generated by `tools/theorems.py` from the sources. Variables of the enclosing section are universally quantified;',
       'the definitions used are in the same file or in the `M_*.v` files.', '']
for p in props:
    c = claims[p['id']]
    out += [f"## {p['id']}: {p['title']}", '', p['statement'], '', f"*For*: {p['quantifier']}. *Status*: {c['status']}.", '']
    if c.get('note'):
        out += [c['note'], '']
    for t in c['theorems']:
        f, line, text = where[t]
        out += [f'`rocq/theories/{f}:{line}`', '```coq', text, '```', '']
open(os.path.join(ROOT, 'THEOREMS.md'), 'w').write('\n'.join(out))
print(len(where), 'theorems')
