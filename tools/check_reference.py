# Spec_Fat8Ref.v against the files it describes
import re
src=open('/verif/rocq/theories/Spec_Fat8Ref.v').read()
for name,f in (('empty_floppy_img','empty-floppy.img'),('empty_minifloppy_img','empty-minifloppy.img')):
    s,d,i,n,m=map(int,re.search(r'Definition %s : list Z := blank_image (\d+) (\d+) (\d+) (\d+) (\d+)\.'%name,src).groups())
    fat=b'\xff'*m+b'\xfe\xfe'+b'\xff'*(128*n-m-2)
    img=bytes(128*d)+b'\xff'*(128*(i-d))+bytes(128)+fat*3+bytes(128*(s-i-1-3*n))
    print(f, img==open('/repo/file_systems/fat8/testdata/'+f,'rb').read())
