from lat import *
import pickle
from fractions import Fraction as F
from refs import gens_of, uni1
rows,refs,rowclass=pickle.load(open('refs.pkl','rb'))
def snf(A,m,n):
    A=[r[:] for r in A]
    S=[[int(i==j) for j in range(m)] for i in range(m)]
    T=[[int(i==j) for j in range(n)] for i in range(n)]
    def rowop(i,k,f): # row i += f*row k
        A[i]=[a+f*b for a,b in zip(A[i],A[k])]; S[i]=[a+f*b for a,b in zip(S[i],S[k])]
    def colop(j,k,f):
        for r in A: r[j]+=f*r[k]
        for r in T: r[j]+=f*r[k]
    t=0
    while t<min(m,n):
        piv=[(abs(A[i][j]),i,j) for i in range(t,m) for j in range(t,n) if A[i][j]]
        if not piv: break
        _,i,j=min(piv)
        A[t],A[i]=A[i],A[t]; S[t],S[i]=S[i],S[t]
        for r in A: r[t],r[j]=r[j],r[t]
        for r in T: r[t],r[j]=r[j],r[t]
        done=True
        for i in range(t+1,m):
            f=A[i][t]//A[t][t]
            if f: rowop(i,t,-f)
            if A[i][t]: done=False
        for j in range(t+1,n):
            f=A[t][j]//A[t][t]
            if f: colop(j,t,-f)
            if A[t][j]: done=False
        if not done: continue
        bad=[(i,j) for i in range(t+1,m) for j in range(t+1,n) if A[i][j]%A[t][t]]
        if bad: rowop(t,bad[0][0],1); continue
        if A[t][t]<0: A[t]=[-x for x in A[t]]; S[t]=[-x for x in S[t]]
        t+=1
    return [A[i][i] for i in range(t)],S,T
def matinv(T):
    n=len(T); M=[[F(x) for x in T[i]]+[F(int(i==j)) for j in range(n)] for i in range(n)]
    for c in range(n):
        p=next(i for i in range(c,n) if M[i][c]); M[c],M[p]=M[p],M[c]
        d=M[c][c]; M[c]=[x/d for x in M[c]]
        for i in range(n):
            if i!=c and M[i][c]:
                f=M[i][c]; M[i]=[a-f*b for a,b in zip(M[i],M[c])]
    R=[[x for x in M[i][n:]] for i in range(n)]
    assert all(x.denominator==1 for r in R for x in r)
    return [[int(x) for x in r] for r in R]
def fox(w,gens):
    # list of n matrices (9-tuples): translation of word = sum fox_i tau_i ; word [i0,i1,..]= g_i0 g_i1 ...
    n=len(gens); acc=[(0,)*9 for _ in gens]; P=I
    for i in w:
        acc[i]=tuple(a+b for a,b in zip(acc[i],P)); P=mm(P,gens[i])
    return P,acc
def sub(a,b): return tuple(x-y for x,y in zip(a,b))
def rowsof(acc):
    return [[acc[i][3*r+c] for i in range(len(acc)) for c in range(3)] for r in range(3)]
def solve(D,v):
    # rational p with D p = v, D rows x3 ; gaussian
    M=[[F(x) for x in r]+[F(y)] for r,y in zip(D,v)]
    piv=[];r=0
    for c in range(3):
        p=next((i for i in range(r,len(M)) if M[i][c]),None)
        if p is None: continue
        M[r],M[p]=M[p],M[r]; d=M[r][c]; M[r]=[x/d for x in M[r]]
        for i in range(len(M)):
            if i!=r and M[i][c]:
                f=M[i][c]; M[i]=[a-f*b for a,b in zip(M[i],M[r])]
        piv.append(c); r+=1
    assert all(M[i][3]==0 for i in range(r,len(M)))
    x=[F(0)]*3
    for i,c in enumerate(piv): x[c]=M[i][3]
    return x
def latrank(rows_):  # canonical row HNF for comparing row lattices
    A=[r[:] for r in rows_ if any(r)]
    n=len(rows_[0]) if rows_ else 0; out=[];c=0
    for c in range(n):
        while True:
            nz=[r for r in A if r[c]]
            if len(nz)<=1: break
            nz.sort(key=lambda r:abs(r[c])); p=nz[0]
            for r in nz[1:]:
                f=r[c]//p[c]
                for k in range(n): r[k]-=f*p[k]
        nz=[r for r in A if r[c]]
        if nz:
            p=nz[0]; A=[r for r in A if r is not p]
            if p[c]<0: p[:]=[-x for x in p]
            for o in out:
                f=o[c]//p[c]
                for k in range(n): o[k]-=f*p[k]
            out.append(p)
        A=[r for r in A if any(r)]
    return tuple(map(tuple,out))
certs=[]
for j,(ri,S,c) in enumerate(refs):
    gens=gens_of(sorted(S)); n=len(gens)
    # words BFS
    words={I:[]}; order=[I]
    for x in order:
        for i,g in enumerate(gens):
            y=mm(x,g)
            if y not in words: words[y]=words[x]+[i]; order.append(y)
    assert set(order)==set(S)
    rels=[]
    for x in order:
        for i,g in enumerate(gens):
            u=words[x]+[i]; v=words[mm(x,g)]
            if u!=v: rels.append((u,v))
    rels.sort(key=lambda p:len(p[0])+len(p[1]))
    def relrows(rl):
        out=[]
        for u,v in rl:
            Pu,au=fox(u,gens); Pv,av=fox(v,gens); assert Pu==Pv
            out+=rowsof([sub(a,b) for a,b in zip(au,av)])
        return out
    full=latrank(relrows(rels)); keep=list(rels)
    for r in sorted(rels,key=lambda p:-len(p[0])-len(p[1])):
        k2=[x for x in keep if x is not r]
        if latrank(relrows(k2))==full if k2 else full==(): keep=k2
    A=relrows(keep); N=3*n
    if n==0: lam,Sm,T=[],[],[]
    else: lam,Sm,T=snf(A,len(A),N)
    Ti=matinv(T) if n else []
    D=[r for g in gens for r in [[int(a==b)-g[3*a+b] for b in range(3)] for a in range(3)]]
    free=[]
    for k in range(len(lam),N):
        col=[T[i][k] for i in range(N)]
        free.append(solve(D,col))
    e=1
    for p in free:
        for x in p: e=e*x.denominator//math.gcd(e,x.denominator)
    size=1
    for x in lam:
        size*=x
    print(refs[j][0]+1,len(S),'gens',n,'rels',len(keep),'lam',[x for x in lam if x>1],'H1',size,'e',e,flush=True)
    certs.append(dict(gens=gens,words=[words[x] for x in order],order=order,rels=keep,lam=lam,S=Sm[:len(lam)],T=T,Ti=Ti,free=[[int(x*e) for x in p] for p in free],e=e))
pickle.dump(certs,open('certs.pkl','wb'))
