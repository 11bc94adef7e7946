import pickle, re, ast
from refs import *
from table1 import find, reduce
def find2(S):
    r=find(S)
    if r: return r
    for extra in itertools.product((1,2,3,5),repeat=3):
        base=(extra[0],0,0,0,extra[1],0,0,0,extra[2])
        G=tuple(sum(x) for x in zip(*[mm(mm(tr(R),base),R) for R in S]))
        P=reduce(I,G)
        if det(P)<0: P=tuple(-x for x in P)
        Pi=inv_u(P)
        r=find(frozenset(mm(mm(Pi,R),P) for R in S))
        if r: return r[0],mm(r[1],Pi)
rows,refs,rowclass=pickle.load(open('refs.pkl','rb')); brav=pickle.load(open('brav.pkl','rb'))
certs=pickle.load(open('certs.pkl','rb')); match=pickle.load(open('match.pkl','rb'))
s=open('dump.out').read(); s=s[s.index('=')+1:s.rindex(':')]
s=s.replace(';',',').replace('true','True').replace('false','False')
out=ast.literal_eval(s.strip())
z=lambda x: str(x) if x>=0 else '(%d)'%x
M=lambda m:'M3 '+' '.join(z(x) for x in m)
V=lambda m:'V3 '+' '.join(z(x) for x in m)
L=lambda l:'['+'; '.join(z(x) for x in l)+']'
N=lambda l:'['+'; '.join(str(x) for x in l)+']%nat'
D='/tmp/dev/rocq/theories/'
o=open(D+'ClassData.v','w')
o.write('''(** * ClassData: data found by search outside Coq and checked in PropOneType (proof support for
    C86): representatives of the 73 arithmetic crystal classes, where the subgroups of the
    largest ones are found among them, and, for each class, a certificate (see Cocycle) for
    the possible translations together with a change of coordinates to a row of the default
    table for each possibility.  Nothing here is trusted. *)
From Verif Require Import Base Seitz Spec Cocycle.
Open Scope Z_scope.

(** the rotation parts of these rows of the default table (counted from 0) represent the classes *)
Definition class_rows : list nat := %s.
(** the classes of the frames that [LatticeData] refers to *)
Definition frame_classes : list nat := %s.
(** for each frame and each of its subgroups: a class, and a matrix U such that R |-> U R U^-1
    turns the subgroup into the representative of the class *)
Definition subgroup_classes : list (list (nat * mat3)) := [
'''%(N([r[0] for r in refs]),N(brav)))
rowsx=[];cnt=0
for k,(G,subs) in zip(brav,out):
    G=[tuple(m) for m in G]; assert frozenset(G)==refs[k][1]
    l=[]
    for sset in subs:
        S=frozenset(m for m,b in zip(G,sset) if b)
        j,U=find2(S); assert {mm(mm(U,m),inv_u(U)) for m in S}==set(refs[j][1])
        l.append('(%d%%nat, %s)'%(j,M(U))); cnt+=1
    rowsx.append('  ['+'; '.join(l)+']')
o.write(';\n'.join(rowsx)+'].\n')
print(cnt)
o.write('''Record certificate := Cert {
  ce_gens : list mat3; ce_words : list (list nat); ce_rels : list (list nat * list nat); ce_e : Z;
  ce_cols : list column; ce_changes : list (nat * (mat3 * vec3 * Z)) }.
Definition certificates : list certificate := [
''')
cs=[]
for c,m in zip(certs,match):
    n=len(c['gens']); cols=[]
    for k in range(3*n):
        vec=[c['T'][i][k] for i in range(3*n)]
        if k<len(c['lam']): kind='Torsion %d %s'%(c['lam'][k],L(c['S'][k]))
        else: kind='Free (%s)'%V(c['free'][k-len(c['lam'])])
        cols.append('Col %s %s (%s)'%(L(vec),L(c['Ti'][k]),kind))
    cs.append('  Cert [%s]\n    [%s]\n    [%s] %d\n    [%s]\n    [%s]'%('; '.join(map(M,c['gens'])),'; '.join(N(w) for w in c['words']),
      '; '.join('(%s, %s)'%(N(u),N(v)) for u,v in c['rels']),c['e'],';\n     '.join(cols),
      '; '.join('(%d%%nat, (%s, %s, %d))'%(i,M(U),V(q),e) for i,U,q,e in m)))
o.write(';\n'.join(cs)+'].\n')
o.close()
