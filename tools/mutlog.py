#!/usr/bin/env python3
"""Turns results of a mutation batch (results.jsonl of a scratch copy) into lines of seeded/LOG.jsonl."""
import json,re,sys,glob,os
sys.path.insert(0,os.path.dirname(os.path.abspath(__file__)))
from defname import defname
root=os.path.join(os.path.dirname(os.path.abspath(__file__)),'..')
thms={}
for f in glob.glob(root+'/rocq/theories/Props/*.v'):
    for m in re.finditer(r'^(?:Theorem|Lemma|Corollary)\s+(C\d\d+_\w+)',open(f).read(),re.M):
        thms.setdefault(os.path.basename(f)[:-2],[]).append(m.group(1))
skip=set(sys.argv[2:])
out=open(root+'/seeded/LOG.jsonl','a')
for l in open(sys.argv[1]):
    r=json.loads(l)
    if r['id'] in skip: continue
    failed=[f[2] for f in r['fails']]
    cl=[t for b in r['blocked'] for t in thms.get(b,[]) if t.startswith(r['prop'].split(',')[0])]
    out.write(json.dumps({'id':r['id'],'definition':r.get('def') or defname(r['file'],r['old']),'file':r['file'],'edit':{'old':r['old'],'new':r['new']},
      'claim_broken':r['prop']+': '+r['claim'],'proof_that_failed':failed,'theorems_failed':sorted(cl) ,
      'detected': r['rc']!=0,'theorems_tightened':r.get('tightened',[])})+'\n')
