from lat import *
import pickle, sys, time
from refs import conj_to, census, gens_of, uni1
rows,refs,rowclass=pickle.load(open('refs.pkl','rb'))
import functools
bycensus={}
for j,(r,T,c) in enumerate(refs): bycensus.setdefault(c,[]).append((j,T))
def cols(P): return [(P[0],P[3],P[6]),(P[1],P[4],P[7]),(P[2],P[5],P[8])]
def fromcols(c): return (c[0][0],c[1][0],c[2][0],c[0][1],c[1][1],c[2][1],c[0][2],c[1][2],c[2][2])
def q(G,u,v): 
    w=mv(G,v); return u[0]*w[0]+u[1]*w[1]+u[2]*w[2]
def reduce(P,G):
    b=cols(P)
    ch=True
    while ch:
        ch=False
        b.sort(key=lambda v:q(G,v,v))
        for i in (2,1):
            best=b[i]
            others=[b[k] for k in range(3) if k!=i]
            rng=range(-3,4)
            for x in rng:
                for y in rng:
                    v=tuple(b[i][k]+x*others[0][k]+y*others[1][k] for k in range(3))
                    if q(G,v,v)<q(G,best,best): best=v
            if best!=b[i]: b[i]=best; ch=True; break
    return fromcols(b)
ext=None
def extcands():
    global ext
    if ext is None:
        sh=[]
        for i in range(3):
            for j in range(3):
                if i!=j:
                    for k in (-2,-1,1,2):
                        m=list(I); m[3*i+j]=k; sh.append(tuple(m))
        sh2=set(sh)|{mm(a,b) for a in sh for b in sh}
        ext=sorted({mm(a,b) for a in uni1 for b in sh2},key=lambda m:sum(map(abs,m)))
    return ext
@functools.lru_cache(None)
def find(S):
    g=gens_of(S)
    for cands in (lambda:uni1,extcands):
        for U in cands():
            Ui=inv_u(U)
            cg=[mm(mm(U,x),Ui) for x in g]
            for j,T in bycensus[census(S)]:
                if all(x in T for x in cg): return j,U
    return None
def table(big,G):
    out=[];used={}
    for H in hnfs():
        P=reduce(H,G)
        if det(P)<0: P=tuple(-x for x in P)
        d=det(P); A=adj(P)
        S=[]
        for R in big:
            X=exactdiv(mm(mm(A,R),P),d)
            if X: S.append(X)
        r=find(frozenset(S))
        if r is None: print('FAIL',H,P,len(S)); out.append(None); continue
        j,U=r
        P2=mm(P,inv_u(U))
        out.append((j,P2)); used[j]=used.get(j,0)+1
    return out,used
if __name__=='__main__':
    t=time.time()
    ta,ua=table(cubic,I); print({refs[k][0]+1:v for k,v in ua.items()},time.time()-t,flush=True)
    tb,ub=table(hexa,G6); print({refs[k][0]+1:v for k,v in ub.items()},time.time()-t)
    print(max(abs(x) for _,P in ta+tb for x in P))
    pickle.dump((ta,tb,ua,ub),open('table1.pkl','wb'))
