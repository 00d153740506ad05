#!/usr/bin/env python3
"""seeded/LOG.jsonl from the results of mutate.py.  usage: gen_log.py MUTANTS.json RESULTS.jsonl

One line for each mutant with a result; lines of mutants not in RESULTS stay as they are.  seeded/notes.json gives, by mutant,
the theorems tightened after it and remarks."""
import json, os, re, sys
D = os.path.dirname(os.path.dirname(os.path.abspath(__file__)))
log, notes = D + '/seeded/LOG.jsonl', json.load(open(D + '/seeded/notes.json'))
muts = {m['id']: m for m in json.load(open(sys.argv[1]))}
lines = {}
if os.path.exists(log):
    for l in open(log):
        if l.strip(): o = json.loads(l); lines[o['id']] = o
for l in open(sys.argv[2]):
    r = json.loads(l); m = muts.get(r['id'])
    if not m: continue
    ex = re.compile(r'(^|\.)C\d\d_.*ex(_|$)')
    th = [t for t in r['lost'] if not ex.search(t) and not re.search(r'_(all|everything)$', t)]
    n = notes.get(r['id'], {})
    lines[r['id']] = {
        'id': r['id'], 'definition': m['file'] + ': ' + m['definition'], 'edit': {'old': m['old'], 'new': m['new']},
        'claim_broken': m['claim'], 'claims': m['expect'],
        'scripts_failed': [a for a in r['admitted'] if not ex.search(a)],
        'examples_failed': [a for a in r['admitted'] if ex.search(a)],
        'theorems_failed': th,
        'theorems_tightened': n.get('tightened', []),
        **({'not_rebuilt': r['unbuilt'] + r['blocked']} if r['unbuilt'] + r['blocked'] else {}),
        **({'only_built': r['targets']} if 'targets' in r else {}),
        **({'remark': n['remark']} if 'remark' in n else {})}
order = list(muts) + [i for i in lines if i not in muts]
open(log, 'w').write(''.join(json.dumps(lines[i]) + '\n' for i in order if i in lines))
print(len(lines), 'lines;', 'no theorem failed:', [i for i in lines if not lines[i]['theorems_failed']],
      '; claim not hit:', [i for i in lines if not any(c in t for c in lines[i]['claims'] for t in lines[i]['theorems_failed'])])
