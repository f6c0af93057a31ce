#!/usr/bin/env python3
"""Append the results of mutall.py to seeded/LOG.jsonl.  usage: logmut.py MUTANTS.jsonl ['{"id": ["tightened", ...]}' ['{"id": "note"}']]"""
import json,sys
muts={}
for l in open(sys.argv[1]):
    m=json.loads(l); muts[m['id']]=m
tight=json.loads(sys.argv[2]) if len(sys.argv)>2 else {}
notes=json.loads(sys.argv[3]) if len(sys.argv)>3 else {}
res={}
for l in open('/tmp/mu/results.jsonl'):
    r=json.loads(l); res[r['id']]=r
done=set()
try:
    for l in open('/verif/seeded/LOG.jsonl'): done.add(json.loads(l).get('id'))
except FileNotFoundError: pass
n=0
with open('/verif/seeded/LOG.jsonl','a') as f:
    for i,m in muts.items():
        if i in done or i not in res or res[i]['bad']: continue
        e={'id':i,'definition':m['definition'],'file':m.get('file') or m['edits'][0][0],'edit':m['edit'],'claim':m['claim'],'failed_theorems':res[i]['failed'],'tightened':tight.get(i,[])}
        if i in notes: e['note']=notes[i]
        f.write(json.dumps(e)+'\n'); n+=1
print(n,'logged')
