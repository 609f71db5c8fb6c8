"""tightlines.py L1,L2,... thm... : set 'tightened' on the given (1-based) log lines"""
import json,sys
p='/verif/seeded/LOG.jsonl'; L=open(p).read().strip().split('\n')
for i in map(int,sys.argv[1].split(',')):
    r=json.loads(L[i-1]); r['tightened']=sys.argv[2:]; L[i-1]=json.dumps(r)
open(p,'w').write('\n'.join(L)+'\n')
