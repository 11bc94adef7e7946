from lat import *
import pickle, sys
from refs import uni1, gens_of
rows,refs,rowclass=pickle.load(open('refs.pkl','rb')); certs=pickle.load(open('certs.pkl','rb'))
ta,tb,ua,ub=pickle.load(open('table1.pkl','rb'))
def vadd(a,b): return tuple(x+y for x,y in zip(a,b))
def evalw(w,ops):
    P=I;t=(0,0,0)
    for i in w:
        g,u=ops[i]; t=vadd(t,mv(P,u)); P=mm(P,g)
    return P,t
def coords(c,tau):
    # tau list of n vectors -> r, p (over e)
    flat=[x for v in tau for x in v]; N=len(flat)
    s=[sum(c['Ti'][k][i]*flat[i] for i in range(N)) for k in range(N)]
    r=[]
    for k,l in enumerate(c['lam']):
        assert (l*s[k])%12==0
        r.append((s[k]*l//12)%l)
    p=(0,0,0)
    for k,f in enumerate(c['free']):
        p=vadd(p,tuple(s[len(c['lam'])+k]*x for x in f))
    return tuple(r),p
def rho(c,r):
    n=len(c['gens']); flat=[0]*(3*n)
    for k,l in enumerate(c['lam']):
        for i in range(3*n): flat[i]+=r[k]*(12//l)*c['T'][i][k]
    return [tuple(flat[3*i:3*i+3]) for i in range(n)]
out=[]
from table1 import extcands
EXT=extcands()
bad=0
for j,(ri,S,cs) in enumerate(refs):
    c=certs[j]; gens=c['gens']
    assert all(12%l==0 for l in c['lam'])
    norm=[U for U in (EXT if 2<len(S)<=16 else uni1) if all(mm(mm(U,g),inv_u(U)) in S for g in gens)]
    found={}
    if len(norm)>400: norm=norm[:400]
    for i,core in enumerate(rows):
        jj,U0=rowclass[i]
        if jj!=j: continue
        todo=[U0]
        seen=set()
        while todo:
            M=todo.pop()
            Mi=inv_u(M)
            tab={mm(mm(M,R),Mi):mv(M,t) for R,t in core}
            tau=[tab[g] for g in gens]
            r,p=coords(c,tau)
            if r in seen: continue
            assert r not in found or found[r][0]==i,(i,found[r])
            seen.add(r); found[r]=(i,M,p)
            todo+= [mm(N,M) for N in norm]
    tot=1
    for l in c['lam']: tot*=l
    if len(found)!=tot: print('MISSING',refs[j][0]+1,tot,len(found)); bad+=1
    lst=[]
    for r in itertools.product(*[range(l) for l in c['lam']]):
        i,M,p=found[r]
        U=inv_u(M); q=mv(U,p); e=c['e']
        q=tuple(x%(12*e) for x in q)
        g=math.gcd(e,*q)
        core=[evalw(w,list(zip(gens,rho(c,r)))) for w in c['words']]
        tgt=dict(rows[i])
        for m,t in core:
            m2=mm(mm(U,m),M)
            v=[e*(a-b)+x-y for a,b,x,y in zip(mv(U,t),tgt[m2],q,mv(m2,q))]
            assert all(x%(12*e)==0 for x in v)
        lst.append((i+1,U,tuple(x//g for x in q),e//g))
    out.append(lst)
print(bad,sum(map(len,out)),sorted({x[0] for l in out for x in l})==list(range(1,231)))
pickle.dump(out,open('match.pkl','wb'))
