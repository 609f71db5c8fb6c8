#!/usr/bin/env python3
"""Mutation test: apply an edit to a model file in a scratch copy, rebuild,
admitting every proof that breaks, and report which property theorems (Props_*.v)
no longer hold (i.e. rest on an admitted lemma or were admitted themselves).
usage: mutate.py FILE OLD NEW CLAIM [--log] ; OLD/NEW may be @file"""
import sys,os,re,shutil,subprocess,json,tempfile
def load(a): return open(a[1:]).read() if a.startswith('@') else a
def deps(d,files):
    out=subprocess.run(['coqdep','-Q','theories','Verif']+['theories/'+f+'.v' for f in files],cwd=d,capture_output=True,text=True).stdout
    r={}
    for line in out.splitlines():
        m=re.match(r'theories/(\w+)\.vo .*: (.*)',line)
        if m: r[m.group(1)]=[x for x in re.findall(r'theories/(\w+)\.vo',m.group(2))]
    return r
def run(file,old,new,claim,log,count=1):
    d=tempfile.mkdtemp(prefix='mut')
    shutil.copytree(os.environ.get('MUTSRC','/verif/rocq'),d+'/rocq'); d+='/rocq'
    files=[l.strip()[len('theories/'):-2] for l in open(d+'/_CoqProject') if l.startswith('theories/')]
    p=f'{d}/theories/{file}.v'; s=open(p).read()
    assert s.count(old)>=1,(file,old,s.count(old))
    s=s.replace(old,new) if count==0 else s.replace(old,new,count); open(p,'w').write(s)
    dp=deps(d,files); order=[]
    def visit(f):
        if f not in order:
            for x in dp.get(f,[]): visit(x)
            if f not in order: order.append(f)
    for f in files: visit(f)
    files=order
    dirty={file}; admitted=[]; dead=[]; fails=[]; targeted=False
    if os.environ.get('MUTQUICK'):
        # rebuild first only what the theorems of the claimed properties need
        props=re.findall(r'C\d+',claim); want=set()
        def close(f):
            if f not in want:
                want.add(f)
                for x in dp.get(f,[]): close(x)
        for f in files:
            if f.startswith('Props_') and any(re.search(r'(?m)^(Theorem|Example) '+q+'_',open(f'{d}/theories/{f}.v').read()) for q in props): close(f)
        files=[f for f in files if f in want]+['*']+[f for f in files if f not in want]
    for f in files:
        if f=='*':
            if fails: targeted=True; break
            continue
        if f in dead: continue
        if f==file or any(x in dirty for x in dp.get(f,[])): dirty.add(f)
        else: continue
        if any(x in dead for x in dp.get(f,[])): dead.append(f); continue
        path=f'{d}/theories/{f}.v'
        for it in range(80):
            try: r=subprocess.run(['coqc','-Q','theories','Verif',path],cwd=d,capture_output=True,text=True,timeout=int(os.environ.get('MUTTIMEOUT','900')))
            except subprocess.TimeoutExpired: dead.append(f); print('TIMEOUT',f); break
            if r.returncode==0: break
            m=re.search(r'line (\d+), characters',r.stderr)
            ln=int(m.group(1)); lines=open(path).read().split('\n')
            # find enclosing Proof
            i=ln-1
            while i>=0 and not re.match(r'\s*Proof\b',lines[i]): i-=1
            j=i
            while j<len(lines) and not re.search(r'\b(Qed|Defined)\.',lines[j]): j+=1
            if i<0 or j<ln-1 or j>=len(lines):
                print('STATEMENT ERROR',f,ln,r.stderr[:300]); dead.append(f); break
            k=i
            while k>=0 and not re.match(r'\s*(Lemma|Theorem|Example|Corollary|Fact|Definition|Local Lemma)\b',lines[k]): k-=1
            name=re.match(r'\s*(?:Local )?\w+ (\w+)',lines[k]).group(1); admitted.append((f,name))
            pre=lines[i].index('Proof')
            lines[i:j+1]=[lines[i][:pre]+'Admitted.']+['']*(j-i)
            open(path,'w').write('\n'.join(lines))
        if f.startswith('Props_') and f not in dead:
            src=open(path).read(); names=re.findall(r'Print Assumptions (\w+)\.',src)
            outs=re.split(r'(?=Closed under the global context|Axioms:)',r.stdout)[1:]
            for n,o in zip(names,outs):
                if not o.startswith('Closed'): fails.append(n)
    for f in dead:
        if f.startswith('Props_'): fails+=re.findall(r'Print Assumptions (\w+)\.',open(f'{d}/theories/{f}.v').read())
    ex=[n for f,n in admitted if f.startswith('Props_') and n not in fails]
    print('BROKEN LEMMAS',[n for f,n in admitted if not f.startswith('Props_')]); print('FAILED',fails); print('FAILED EXAMPLES',ex)
    if log:
        with open('/verif/seeded/LOG.jsonl','a') as fh:
            fh.write(json.dumps({"definition":file+'.v',"edit":f"{old.strip()}  ==>  {new.strip()}","claim":claim,"failed":fails,"failed_examples":ex,"tightened":[],**({"rebuilt":"only the files the claimed property needs"} if targeted else {})})+'\n')
    shutil.rmtree(os.path.dirname(d))
    return fails
if __name__=='__main__':
    a=[x for x in sys.argv[1:] if x!='--log']
    run(a[0],load(a[1]),load(a[2]),a[3] if len(a)>3 else '', '--log' in sys.argv)
