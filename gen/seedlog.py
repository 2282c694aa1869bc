#!/usr/bin/env python3
"""Turn the raw mutant records (/tmp/mut/log.jsonl) and the hand-written
records of tightenings (seeded_hand.json) into /verif/seeded/LOG.jsonl."""
import json, os, re
here = os.path.dirname(os.path.abspath(__file__))
T = os.path.join(here, '../rocq/theories')
prop = {}
for f in sorted(os.listdir(T)):
    if f.startswith('Prop') and f.endswith('.v'):
        prop[f] = re.findall(r'^(?:Theorem|Corollary)\s+(C\d+_\w+)', open(os.path.join(T, f)).read(), re.M)
out = json.load(open(os.path.join(here, 'seeded_hand.json')))
for l in open(os.path.join(here, 'seeded_raw.jsonl')):
    r = json.loads(l)
    ce = r['counterexample']
    d = dict(id=r['id'], definition=r['definition'], edit=r['edit'], claim_broken=r['claim'],
             theorems_refuted=r['refuted_statement'],
             first_proof_failures=r['first_failures'],
             property_files_no_longer_built=r['blocked'],
             counterexample_checked_in_coq=(ce == 'refuted'),
             theorems_tightened=[])
    if r.get('note'): d['note'] = r['note']
    out.append(d)
with open(os.path.join(here, '../seeded/LOG.jsonl'), 'w') as f:
    for d in out: f.write(json.dumps(d) + '\n')
print(len(out))
