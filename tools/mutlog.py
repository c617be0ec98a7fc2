#!/usr/bin/env python3
# Appends the results of a batch of seeded bugs to seeded/LOG.jsonl.
# usage: mutlog.py results.jsonl [tightened.json]
# tightened.json: {edit: [theorems added or changed because nothing noticed the edit]}
import json, sys, os
log = os.path.join(os.path.dirname(os.path.abspath(__file__)), '..', 'seeded', 'LOG.jsonl')
tight = json.load(open(sys.argv[2])) if len(sys.argv) > 2 else {}
seen = set()
for l in open(log):
    d = json.loads(l); seen.add((d['definition'], d['edit'], tuple(d['failed'])))
with open(log, 'a') as out:
    for l in open(sys.argv[1]):
        d = json.loads(l)
        if d['status'] != 'ok': continue
        e = dict(definition=d['file'] + ': ' + d['definition'], edit=d['edit'], claim=d['claim'],
                 failed=d['failed'], tightened=tight.get(d['edit'], []) if not d['failed'] else [])
        if (e['definition'], e['edit'], tuple(e['failed'])) in seen: continue
        out.write(json.dumps(e) + '\n')
