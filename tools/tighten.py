"""tighten.py N thm... : set 'tightened' on the last N log lines"""
import json,sys
p='/verif/seeded/LOG.jsonl'; L=open(p).read().strip().split('\n'); n=int(sys.argv[1])
for i in range(-n,0):
    r=json.loads(L[i]); r['tightened']=sys.argv[2:]; L[i]=json.dumps(r)
open(p,'w').write('\n'.join(L)+'\n')
