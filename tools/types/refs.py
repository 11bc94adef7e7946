from lat import *
import model, re, pickle
B={'P':(12,0,0,0,12,0,0,0,12),'A':(12,0,0,0,12,6,0,0,6),'B':(12,0,6,0,12,0,0,0,6),'C':(12,6,0,0,6,0,0,0,12),'I':(12,0,6,0,12,6,0,0,6),'R':(12,0,8,0,12,4,0,0,4),'F':(0,6,6,6,0,6,6,6,0)}
Dd={k:exactdiv(tuple(12*x for x in adj(b)),det(b)) for k,b in B.items()}
def flat(M): return tuple(x for r in M for x in r)
rows=[]
for i,s in enumerate(model.DHALL):
    n=model.parse(s); L,l,it,log,gens=model.gen(n); lt=n[1]
    core=[]
    for R,t in l:
        Rp=exactdiv(mm(mm(Dd[lt],flat(R)),B[lt]),12); assert Rp
        core.append((Rp,tuple(x%12 for x in mv(Dd[lt],t))))
    rows.append(core)
def census(G): return tuple(sorted((det(m),m[0]+m[4]+m[8]) for m in G))
uni1=sorted([m for m in units if det(m)==1],key=lambda m:sum(map(abs,m)))
uni2=None
def gens_of(G):
    G=list(G); best=None
    for r in (0,1,2,3,4):
        for c in itertools.combinations(G,r):
            S={I};fr=[I]
            while fr:
                x=fr.pop()
                for g in c:
                    y=mm(x,g)
                    if y not in S: S.add(y);fr.append(y)
            if len(S)==len(G): return c
def conj_to(G,gens,target,cands):
    for U in cands:
        Ui=inv_u(U)
        if all(mm(mm(U,g),Ui) in target for g in gens): return U
refs=[]  # (row index, frozenset, census)
rowclass=[]
for i,core in enumerate(rows):
    S=frozenset(m for m,t in core); c=census(S); g=gens_of(S)
    for j,(r,T,cT) in enumerate(refs):
        if cT!=c: continue
        U=conj_to(S,g,T,uni1)
        if U: rowclass.append((j,U)); break
    else:
        refs.append((i,S,c)); rowclass.append((len(refs)-1,I))
print(len(refs),[r[0]+1 for r in refs])
pickle.dump((rows,refs,rowclass),open('refs.pkl','wb'))
