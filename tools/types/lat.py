import itertools, math
def mm(a,b):
    return (a[0]*b[0]+a[1]*b[3]+a[2]*b[6],a[0]*b[1]+a[1]*b[4]+a[2]*b[7],a[0]*b[2]+a[1]*b[5]+a[2]*b[8],
            a[3]*b[0]+a[4]*b[3]+a[5]*b[6],a[3]*b[1]+a[4]*b[4]+a[5]*b[7],a[3]*b[2]+a[4]*b[5]+a[5]*b[8],
            a[6]*b[0]+a[7]*b[3]+a[8]*b[6],a[6]*b[1]+a[7]*b[4]+a[8]*b[7],a[6]*b[2]+a[7]*b[5]+a[8]*b[8])
def mv(a,v): return (a[0]*v[0]+a[1]*v[1]+a[2]*v[2],a[3]*v[0]+a[4]*v[1]+a[5]*v[2],a[6]*v[0]+a[7]*v[1]+a[8]*v[2])
def det(a): return a[0]*(a[4]*a[8]-a[5]*a[7])-a[1]*(a[3]*a[8]-a[5]*a[6])+a[2]*(a[3]*a[7]-a[4]*a[6])
def adj(a):
    return (a[4]*a[8]-a[5]*a[7], a[2]*a[7]-a[1]*a[8], a[1]*a[5]-a[2]*a[4],
            a[5]*a[6]-a[3]*a[8], a[0]*a[8]-a[2]*a[6], a[2]*a[3]-a[0]*a[5],
            a[3]*a[7]-a[4]*a[6], a[1]*a[6]-a[0]*a[7], a[0]*a[4]-a[1]*a[3])
I=(1,0,0,0,1,0,0,0,1)
def exactdiv(a,d):
    r=[]
    for x in a:
        if x%d: return None
        r.append(x//d)
    return tuple(r)
def inv_u(a):
    d=det(a); assert abs(d)==1
    return tuple(d*x for x in adj(a))
units=[m for m in itertools.product((-1,0,1),repeat=9) if abs(det(m))==1]
def tr(a): return (a[0],a[3],a[6],a[1],a[4],a[7],a[2],a[5],a[8])
cubic=[m for m in units if mm(tr(m),m)==I]
G6=(2,-1,0,-1,2,0,0,0,2)
hexa=[m for m in units if mm(mm(tr(m),G6),m)==G6 and m[2]==m[5]==m[6]==m[7]==0]
def hnfs():
    D=[1,2,3,4,6,12]
    out=[]
    for a in D:
        for c in D:
            for f in D:
                for e in range(f):
                    # (0,12,0) in: 12/c*(0,c,e) -> (0,12,12e/c), so f | 12e/c
                    if (12//c*e)%f: continue
                    for b in range(c):
                        for d in range(f):
                            # lattice cols (a,b,d),(0,c,e),(0,0,f): (12,0,0) in lattice
                            k=12//a
                            y=k*b
                            if y%c: continue
                            w=k*d-(y//c)*e
                            if w%f: continue
                            out.append((a,0,0,b,c,0,d,e,f))
    return out
if __name__=='__main__':
    print(len(cubic),len(hexa),len(hnfs()))
