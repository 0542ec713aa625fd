"""Writes MANIFEST.json from the theorem names in rocq/theories/P_*.v and the notes below."""
import glob, json, os, re

ROOT = os.path.dirname(os.path.dirname(os.path.abspath(__file__)))
NOTES = json.load(open(os.path.join(ROOT, 'tools', 'notes.json')))
theorems = {}
for f in sorted(glob.glob(os.path.join(ROOT, 'rocq/theories/P_*.v'))):
    for m in re.finditer(r'^\s*Theorem (C\d\d+_\w+)', open(f).read(), re.M):
        theorems.setdefault(m.group(1).split('_')[0], []).append(m.group(1))
claims = []
for line in open(os.path.join(ROOT, 'properties.jsonl')):
    pid = json.loads(line)['id']
    ths = theorems.get(pid, [])
    if pid in NOTES:
        status, note = NOTES[pid]
    elif ths:
        status, note = 'proved', ''
    else:
        continue
    claims.append({'property': pid, 'status': status, 'theorems': ths, 'note': note})
json.dump({'claims': claims}, open(os.path.join(ROOT, 'MANIFEST.json'), 'w'), indent=1)
print(len(claims), 'claims;', sum(len(c['theorems']) for c in claims), 'theorems; missing:',
      [json.loads(l)['id'] for l in open(os.path.join(ROOT, 'properties.jsonl')) if json.loads(l)['id'] not in theorems])
