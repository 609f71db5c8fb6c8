import sys
names=sys.argv[1:]
p='/verif/rocq/_CoqProject'; s=open(p).read()
for n in names:
    l='theories/%s.v'%n
    if l not in s: s=s.rstrip('\n')+'\n'+l+'\n'
open(p,'w').write(s)
