import pickle
from refs import *
rows,refs,rowclass=pickle.load(open('refs.pkl','rb'))
ta,tb,ua,ub=pickle.load(open('table1.pkl','rb'))
brav=sorted(set(ua)|set(ub)); print([refs[k][0]+1 for k in brav])
z=lambda x: str(x) if x>=0 else '(%d)'%x
M=lambda m:'M3 '+' '.join(z(x) for x in m)
D='/tmp/dev/rocq/theories/'
o=open(D+'LatticeData.v','w')
o.write('''(** * LatticeData: data found by search outside Coq and checked in PropOneType (proof support
    for C86).  For every lattice between 12 Z^3 and Z^3, in the order of [LatticeBasis.bases]:
    the number of a matrix group (in [ClassData.frames]) and a basis of the lattice, in which
    the cubic (or hexagonal) rotations that carry the lattice into itself belong to that group.
    Nothing here is trusted. *)
From Verif Require Import Base Seitz Spec.
Open Scope Z_scope.

''')
for nm,t in (('cubic_frames',ta),('hexagonal_frames',tb)):
    o.write('Definition %s : list (nat * mat3) := [\n'%nm+';\n'.join('(%d%%nat, %s)'%(brav.index(j),M(P)) for j,P in t)+'].\n')
o.close()
pickle.dump(brav,open('brav.pkl','wb'))
