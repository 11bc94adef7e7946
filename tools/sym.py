import sys; sys.path.insert(0,__file__.rsplit('/',1)[0])
from model import *
import itertools, json
SYM=[1,2,3,5,6,8,10,12,16,21,22,23,25,35,38,42,44,47,65,69,71,75,79,81,82,83,87,89,97,99,107,111,115,119,121,123,139,143,146,147,148,149,150,155,156,157,160,162,164,166,168,174,175,177,183,187,189,191,195,196,197,200,202,204,207,209,211,215,216,217,221,225,229]
assert len(SYM)==73
def det3(a): return (a[0][0]*(a[1][1]*a[2][2]-a[1][2]*a[2][1])-a[0][1]*(a[1][0]*a[2][2]-a[1][2]*a[2][0])+a[0][2]*(a[1][0]*a[2][1]-a[1][1]*a[2][0]))
DUAL={}
for c,L in LAT.items():
    ys=[y for y in itertools.product(range(-2,3),repeat=3) if all(sum(a*b for a,b in zip(y,v))%12==0 for v in L) and any(y)]
    ys.sort(key=lambda y:sum(a*a for a in y))
    DUAL[c]=next((a,b,d) for a in ys for b in ys for d in ys if abs(det3((a,b,d)))==len(L))
def int_kernel(rows,n):
    """rows: list of m int vectors length n; returns basis of integer kernel"""
    # column ops on A (m x n), with U n x n
    A=[r[:] for r in rows]; U=[[int(i==j) for j in range(n)] for i in range(n)]  # U columns
    col=0
    for r in range(len(A)):
        while True:
            nz=[j for j in range(col,n) if A[r][j]!=0]
            if not nz: break
            p=min(nz,key=lambda j:abs(A[r][j]))
            for M in (A,U):
                for row in M: row[col],row[p]=row[p],row[col]
            done=True
            for j in range(col+1,n):
                q=A[r][j]//A[r][col]
                if q:
                    for M in (A,U):
                        for row in M: row[j]-=q*row[col]
                if A[r][j]!=0: done=False
            if done: col+=1; break
        
    return [[U[i][j] for i in range(n)] for j in range(col,n)]
def cert(lat,ops):
    D=DUAL[lat]; k=len(ops); n=3*k
    # sum_i z_i D (I-R_i) = 0
    blocks=[]
    for R,t in ops:
        M=[[int(i==j)-R[i][j] for j in range(3)] for i in range(3)]
        blocks+= [[sum(D[a][i]*M[i][j] for i in range(3)) for j in range(3)] for a in range(3)]
    rows=[[blocks[v][j] for v in range(n)] for j in range(3)]
    for z in int_kernel(rows,n):
        ys=[tuple(sum(z[3*i+a]*D[a][j] for a in range(3)) for j in range(3)) for i in range(k)]
        s=sum(sum(y[j]*ops[i][1][j] for j in range(3)) for i,y in enumerate(ys))
        if s%12: return ys
    return None
def fixed(L,ops,den=24):
    # search p in (1/den)Z^3
    best=None
    for p in itertools.product(range(den),repeat=3):
        ok=True
        for R,t in ops:
            w=[ (sum(R[i][j]*p[j] for j in range(3))-p[i])*12+t[i]*den for i in range(3)]
            if not any(all((w[i]+v[i]*den)%(12*den)==0 for i in range(3)) for v in L): ok=False;break
        if ok: return p
    return None
def leading(l): return int(re.match(r'\d+',l).group())
if __name__=='__main__':
    res={}
    for nm,tab,lab in(('full',HALL,NUM),('default',DHALL,DNUM)):
        out=[]
        for i,s in enumerate(tab):
            n=parse(s); L,core,_,_,gens=gen(n)
            lat=n[1]; ops=[m for m in core if m[0]!=I3]
            num=leading(lab[i])
            # try small subsets of ops for certificate
            c=None
            for k in (1,2,3):
                for sub in itertools.combinations(range(len(core)),k):
                    if any(core[x][0]==I3 for x in sub): continue
                    ys=cert(lat,[core[x] for x in sub])
                    if ys: c=list(zip(sub,ys)); break
                if c: break
                if k==2 and len(core)>16: pass
            if c: out.append(('N',c))
            else:
                p=fixed(L,core)
                assert p is not None,(i,s,num)
                out.append(('Y',p))
            exp= num in SYM
            if (out[-1][0]=='Y')!=exp: print(nm,i,s,lab[i],out[-1])
        res[nm]=out
        print(nm,sum(1 for o in out if o[0]=='Y'),max(abs(x) for o in out if o[0]=='N' for _,y in o[1] for x in y), max(len(o[1]) for o in out if o[0]=='N'))
    json.dump(res,open('sym.json','w'))
