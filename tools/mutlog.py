#!/usr/bin/env python3
"""Append mutation results (output of mutate.py) to /verif/seeded/LOG.jsonl.
   mutlog.py RESULTS.jsonl... ; optional file /tmp/mut/tight.json maps an edit
   description to the theorems which were added or tightened because of it."""
import json, os, sys
tight = json.load(open('/tmp/mut/tight.json')) if os.path.exists('/tmp/mut/tight.json') else {}
with open('/verif/seeded/LOG.jsonl', 'a') as out:
    for f in sys.argv[1:]:
        for l in open(f):
            r = json.loads(l)
            m = r['mutation']
            rec = dict(definition='theories/%s.v' % m['file'] if not m['file'].endswith('.v') else m['file'],
                       old=m['old'], new=m['new'], edit=m['edit'], claim=m['claim'],
                       failed=r.get('failed', []), tightened=tight.get(m['edit'], []))
            if 'equivalent' in m['edit'] or 'equivalent' in m['claim']:
                rec['note'] = ('Behaviour is unchanged by this edit, so no claim is broken; a proof '
                               'script that names the edited text may still fail.')
            if m['edit'] in tight:
                rec['note'] = 'No theorem failed at first: the listed theorems were added because of this edit.'
            out.write(json.dumps(rec) + '\n')
