"""Writes sections 6-8 of DESIGN.md (everything after the marker line) from properties.jsonl, MANIFEST.json, the comments
before the refuted theorems and the log of seeded bugs."""
import glob, json, os, re

ROOT = os.path.dirname(os.path.dirname(os.path.abspath(__file__)))
MARK = '<!-- sections 6 to 8 are written by tools/design.py -->'
props = [json.loads(l) for l in open(os.path.join(ROOT, 'properties.jsonl'))]
claims = {c['property']: c for c in json.load(open(os.path.join(ROOT, 'MANIFEST.json')))['claims']}
where, comment = {}, {}
for f in sorted(glob.glob(os.path.join(ROOT, 'rocq/theories/P_*.v'))):
    s = open(f).read()
    for m in re.finditer(r'^\s*Theorem (C\d\d+_\w+)', s, re.M):
        where[m.group(1)] = os.path.basename(f)
        before = s[:m.start()].rstrip()
        if before.endswith('*)'):
            c = before[before.rindex('(*'):]
            comment[m.group(1)] = ' '.join(c.strip('(*) \n').split())
out = [MARK, '', '## 6. Properties', '', '| id | property | status | files | theorems |', '|---|---|---|---|---|']
for p in props:
    c = claims[p['id']]
    files = sorted({where[t] for t in c['theorems']})
    out.append('| %s | %s | %s | %s | %s |' % (p['id'], p['title'], c['status'], ', '.join('`%s`' % f for f in files),
                                             ', '.join('`%s`' % t for t in c['theorems'])))
out += ['', '## 7. Findings', '', 'Where the code does not do what the property says; each is a theorem with a concrete witness.', '']
for p in props:
    for t in claims[p['id']]['theorems']:
        if t.endswith('_refuted'):
            text = re.sub(r'^[Ff]inding:\s*', '', comment.get(t, ''))
            out.append('* `%s` (%s)%s' % (t, p['title'], ': ' + text if text else ''))
rows = [json.loads(l) for l in open(os.path.join(ROOT, 'seeded', 'LOG.jsonl'))]
direct = sum(1 for r in rows if r['theorems_failed'])
lemma = sum(1 for r in rows if not r['theorems_failed'] and r['theorems_failed_through_a_lemma'])
tight = [r for r in rows if r['theorems_tightened']]
invalid = sum(1 for r in rows if r.get('note', '').startswith('not a valid attempt'))
rest = len(rows) - direct - lemma - invalid
out += ['', '## 8. Seeded bugs', '',
        'The model was edited like a realistic bug in a copy, one edit at a time, and rebuilt (`seeded/LOG.jsonl`, one line per '
        'attempt). A failure means that a proof script no longer goes through. This is weaker than a proof that the statement is false '
        'of the edited model: a script can also break because the edit changes the shape of a term. A theorem fails directly if its own '
        'script breaks. It is listed as failed through a lemma if its proof, or a proof it uses, names a lemma whose script broke; '
        'these lists are computed from the text: a run leaves the broken lemma out or stops there, and the theorem is not tried with '
        'another proof. '
        '%d edits so far: %d broke the script of a theorem, %d that of a lemma that theorems use; %d are not valid attempts, as Coq does '
        'not accept the edited model; %d broke no theorem (the notes in the log say why, where there is a reason). After %d the theorems were '
        'tightened or new ones added: %s.' % (len(rows), direct, lemma, invalid, rest, len(tight),
        ', '.join('%s (%s)' % (r['id'], ', '.join(r['theorems_tightened'])) for r in tight)), '']
path = os.path.join(ROOT, 'DESIGN.md')
s = open(path).read()
head = s[:s.index(MARK)] if MARK in s else s
open(path, 'w').write(head.rstrip() + '\n\n' + '\n'.join(out))
print(len(out), 'lines')
