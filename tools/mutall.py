#!/usr/bin/env python3
"""Run the mutants of a JSON-lines file (one object per line) with 4 workers; print what failed.
usage: mutall.py FILE [only-id ...]   results in /tmp/mu/results.jsonl"""
import json,sys,os,subprocess
from concurrent.futures import ThreadPoolExecutor
sys.path.insert(0,os.path.dirname(__file__))
import mutate
muts=[json.loads(l) for l in open(sys.argv[1]) if l.strip()]
only=set(sys.argv[2:])
if only: muts=[m for m in muts if m['id'] in only]
import queue
slots=queue.Queue()
for i in range(4): slots.put('/tmp/mut%d'%i)
def one(m):
    d=slots.get()
    try: r=mutate.run(m,d)
    except Exception as e: r={'bad':repr(e),'failed':[],'cheated':[]}
    finally: slots.put(d)
    r['id']=m['id']
    with open('/tmp/mu/results.jsonl','a') as f: f.write(json.dumps(r)+'\n')
    want=m.get('expect',[]); fam=set(x.split('_')[0] for x in r['failed'])
    miss=[w for w in want if not any(x==w or x.startswith(w+'_') for x in r['failed'])]
    print(m['id'],'BAD '+r['bad'] if r['bad'] else ('MISS '+','.join(miss) if miss else 'ok'),'|',' '.join(r['failed']),'|',len(r['cheated']),flush=True)
with ThreadPoolExecutor(4) as ex: list(ex.map(one,muts))
