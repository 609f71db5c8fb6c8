import json,os,re,glob
root=os.path.join(os.path.dirname(os.path.abspath(__file__)),'..')
head=open(os.path.join(root,'tools/design_head.md')).read()
props=[json.loads(l) for l in open(os.path.join(root,'properties.jsonl'))]
man={c['property']:c for c in json.load(open(os.path.join(root,'MANIFEST.json')))['claims']}
where={}
for f in glob.glob(os.path.join(root,'rocq/theories/*.v')):
    for m in re.finditer(r'^(?:Theorem|Lemma) (C\d\w*)',open(f).read(),re.M): where[m.group(1)]=os.path.basename(f)
out=[head,'| Id | Property | Status | File | Theorems | Note |\n|---|---|---|---|---|---|\n']
for p in props:
    c=man.get(p['id'],{'status':'open','theorems':[],'note':''})
    files=sorted({where.get(t,'?') for t in c['theorems']})
    out.append('| %s | %s | %s | %s | %s | %s |\n'%(p['id'],p['title'].replace('|','\\|'),c['status'],', '.join(files),' '.join('`%s`'%t for t in c['theorems']),c['note'].replace('|','\\|')))
open(os.path.join(root,'DESIGN.md'),'w').write(''.join(out))
