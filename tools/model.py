import re,sys
from functools import lru_cache
src=open('/repo/src/database/space_group_table.rs').read()
def arr(name):
    i=src.index('const %s:'%name); j=src.index('= [',i); k=src.index('\n];',j)
    body=src[j+3:k]
    return [m.encode().decode('unicode_escape') for m in re.findall(r'"((?:[^"\\]|\\.)*)"',body)]
NUM=arr('NUMBER_AND_CHOICE');HM=arr('HM_FULL');HALL=arr('HALL_NAME')
DNUM=arr('DEFAULT_NUMBER_AND_CHOICE');DHM=arr('DEFAULT_HM_FULL');DHALL=arr('DEFAULT_HALL_NAME')
o=open('/repo/src/database/sym_ops_order.rs').read()
def oarr(n):
    i=o.index(n+':'); k=o.index('];',o.index('= [',i)); return re.findall(r'"([^"]*)"',o[i:k])
O48,O24,O12=oarr('ORDER_48'),oarr('ORDER_24'),oarr('ORDER_12')
mod=open('/repo/src/database/mod.rs').read()
ENUM=re.findall(r'\n    (\w+),',mod[mod.index('enum SpaceGroupHallSymbol'):mod.index('impl SpaceGroupHallSymbol')])
def rem(a,b): 
    r=abs(a)%b
    return r if a>=0 else -r
def pm(v): return rem(v,12)+12 if v<0 else rem(v,12)
LAT={'P':[(0,0,0)],'A':[(0,0,0),(0,6,6)],'B':[(0,0,0),(6,0,6)],'C':[(0,0,0),(6,6,0)],'I':[(0,0,0),(6,6,6)],'R':[(0,0,0),(8,4,4),(4,8,8)],'F':[(0,0,0),(0,6,6),(6,0,6),(6,6,0)]}
class Panic(Exception): pass
class PErr(Exception): pass
def parse(s):
    p=0
    minus=False
    if s[p:p+1]=='-': minus=True;p+=1
    if s[p:p+1] and s[p] in 'PABCIRF': lat=s[p];p+=1
    else: raise PErr()
    syms=[]
    while True:
        while s[p:p+1] in (' ','\t') and p<len(s): p+=1
        m=re.match(r'-?[12346]',s[p:])
        if not m: break
        t=m.group();p+=len(t)
        sign=t[0]=='-';n=int(t[-1])
        # axis
        q=p; err=False
        while p<len(s):
            if s[p] in 'xyz\'"*': p+=1
            elif s[p]=='\\':
                p+=1
                if p<len(s) and s[p] in '"\\\'': p+=1
                else: err=True;break
            else: break
        ax,dg=('z','_')
        sl=s[q:p]
        if not err:
            if sl in ('x','y','z'): ax=sl
            elif sl in ("'",'"','*') : ax,dg='o',sl
        sub=0;tr=None
        if p<len(s) and s[p] in '12345':
            sub=int(s[p]);p+=1;r=re.match('[abcnuvwd]*',s[p:]).group();p+=len(r);tr=r or None
        elif p<len(s) and s[p] in 'abcnuvwd':
            r=re.match('[abcnuvwd]*',s[p:]).group();p+=len(r);tr=r
        syms.append([sign,n,sub,dg,ax,tr])
    m=re.match(r'[ \t]*\(',s[p:])
    sh=(0,0,0)
    m=re.match(r'[ \t]*\(([-+]?[1-9]\d*|0)((?:[ \t]+(?:[-+]?[1-9]\d*|0)){0,2})\)',s[p:])
    if m:
        nums=[int(x) for x in [m.group(1)]+m.group(2).split()]
        if all(-2**31<=x<2**31 for x in nums):
            if len(nums)!=3: raise PErr()
            sh=tuple(v if -11<=v<12 else rem(v,12)+12 for v in nums)
    folds=[x[1] for x in syms]
    for i,x in enumerate(syms):
        if i==0 and x[4]=='o': x[4]='z'
        if i==1 and x[1]==2:
            if folds[0] in(2,4): x[4]='x'
            elif folds[0] in (3,6):
                if x[3]=='_': x[3]="'"
                x[4]='z'
        if i==2 and x[1]==3: x[3]='*'
    return (minus,lat,syms,sh)
def cols(c): return tuple(tuple(c[j][i] for j in range(3)) for i in range(3))
ROT={(2,'_','x'):((1,0,0),(0,-1,0),(0,0,-1)),(2,'_','y'):((-1,0,0),(0,1,0),(0,0,-1)),(2,'_','z'):((-1,0,0),(0,-1,0),(0,0,1)),
(3,'_','x'):cols([[1,0,0],[0,0,1],[0,-1,-1]]),(3,'_','y'):cols([[-1,0,-1],[0,1,0],[1,0,0]]),(3,'_','z'):cols([[0,1,0],[-1,-1,0],[0,0,1]]),
(4,'_','x'):cols([[1,0,0],[0,0,1],[0,-1,0]]),(4,'_','y'):cols([[0,0,-1],[0,1,0],[1,0,0]]),(4,'_','z'):cols([[0,1,0],[-1,0,0],[0,0,1]]),
(6,'_','x'):cols([[1,0,0],[0,1,1],[0,-1,0]]),(6,'_','y'):cols([[0,0,-1],[0,1,0],[1,0,1]]),(6,'_','z'):cols([[1,1,0],[-1,0,0],[0,0,1]]),
(2,"'",'x'):cols([[-1,0,0],[0,0,-1],[0,-1,0]]),(2,"'",'y'):cols([[0,0,-1],[0,-1,0],[-1,0,0]]),(2,"'",'z'):cols([[0,-1,0],[-1,0,0],[0,0,-1]]),
(2,'"','x'):cols([[-1,0,0],[0,0,1],[0,1,0]]),(2,'"','y'):cols([[0,0,1],[0,-1,0],[1,0,0]]),(2,'"','z'):cols([[0,1,0],[1,0,0],[0,0,-1]]),
}
I3=((1,0,0),(0,1,0),(0,0,1))
TRV=dict(a=(6,0,0),b=(0,6,0),c=(0,0,6),n=(6,6,6),u=(3,0,0),v=(0,3,0),w=(0,0,3),d=(3,3,3))
def neg(m): return tuple(tuple(-x for x in r) for r in m)
def seitz(x):
    sign,n,sub,dg,ax,tr=x
    if n==1: R=I3
    elif n==3 and dg=='*': R=cols([[0,1,0],[0,0,1],[1,0,0]])
    elif (n,dg,ax) in ROT: R=ROT[n,dg,ax]
    else: raise Panic('invalid rot')
    t=[0,0,0]
    if n in(1,2) or sub==0: pass
    else:
        ok={3:{1:4,2:8},4:{1:3,3:9},6:{1:2,2:4,4:8,5:10}}
        if sub not in ok[n] or ax=='o': raise Panic('invalid sub')
        t['xyz'.index(ax)]=ok[n][sub]
    if tr:
        s=[sum(TRV[c][i] for c in tr)%12 for i in range(3)]
        t=[t[i]+s[i] for i in range(3)]
    if sign: R=neg(R)
    return (R,tuple(t))
def mv(R,t): return tuple(sum(R[i][k]*t[k] for k in range(3)) for i in range(3))
def mm(A,B): return tuple(tuple(sum(A[i][k]*B[k][j] for k in range(3)) for j in range(3)) for i in range(3))
def mul(a,b): 
    v=mv(a[0],b[1]); return (mm(a[0],b[0]),tuple(rem(v[i]+a[1][i],12) for i in range(3)))
def addv(m,v): return (m[0],tuple(rem(a+b,12) for a,b in zip(m[1],v)))
def minrepr(L,t):
    cur=tuple(map(pm,t))
    for tr in L:
        nx=tuple(pm(a+b) for a,b in zip(t,tr))
        if sum(x*x for x in cur)>sum(x*x for x in nx) and sum(x<=0 for x in cur)>=sum(x<=0 for x in nx): cur=nx
    return cur
def jrow(r):
    s=''
    for v,c in zip(r,'xyz'):
        if v: s+=('-' if v<0 else '+')+ (c if abs(v)==1 else chr(ord(c)*abs(v)))
    return s.lstrip('+')
def jrot(R): return ','.join(jrow(r) for r in R)
def gen(n,limit=400):
    minus,lat,syms,sh=n
    L=LAT[lat]
    gens=[]
    for v in L:
        gens.append(addv((I3,(0,0,0)),v))
        if minus: gens.append(addv((neg(I3),(0,0,0)),v))
    for x in syms:
        R,t=seitz(x)
        rv=mv(R,sh)
        gens.append((R,tuple(pm(t[i]+sh[i]-rv[i]) for i in range(3))))
    mp={};lst=[]
    log=[]
    def add(l,m):
        R,t=m
        if R not in mp:
            c=minrepr(L,t);mp[R]={c};l.append((R,c));return True
        if all(tuple(pm(a+b) for a,b in zip(t,tr)) not in mp[R] and all(rem(a+b,12)!=0 for a,b in zip(t,tr)) for tr in L):
            c=minrepr(L,t)
            if c in mp[R]: return False
            mp[R].add(c);l.append((R,c));log.append('dup');return True
        if all(tuple(pm(a+b) for a,b in zip(t,tr)) not in mp[R] for tr in L): log.append(('dropped',m))
        return False
    for g in gens: add(lst,g)
    iters=0
    while True:
        iters+=1
        c=list(lst)
        for i in lst[1:]:
            for j in lst[1:]:
                if add(c,mul(i,j)): break
        if len(c)>len(lst): lst=c
        else: break
        if len(lst)>limit: raise Panic('diverge')
    if not syms: raise Panic('no syms')
    f=syms[0]
    order=O24 if f[1]==6 else (O12 if f[3]=='*' else O24) if f[1]==3 else O48
    if len(lst)>1:
        for m in lst:
            if jrot(m[0]) not in order: raise Panic('sort '+jrot(m[0]))
        lst.sort(key=lambda m: order.index(jrot(m[0])))
    return L,lst,iters,log,gens
if __name__=='__main__':
    print(len(NUM),len(HM),len(HALL),len(DNUM),len(DHM),len(DHALL),len(ENUM))
    print('order uniq',len(set(O48)),len(set(O24)),len(set(O12)))
    mxit=0
    for tab,nm in((HALL,NUM),(DHALL,DNUM)):
      for i,s in enumerate(tab):
        try:
            n=parse(s)
            L,l,it,log,gens=gen(n)
        except (Panic,PErr) as e:
            print(i,s,nm[i],'FAIL',repr(e));continue
        mxit=max(mxit,it)
        rots=[m[0] for m in l]
        full=set((m[0],tuple((a+b)%12 for a,b in zip(m[1],v))) for m in l for v in L)
        closed=all((lambda p:(p[0],tuple(x%12 for x in p[1])) in full)(mul(a,b)) for a in full for b in full) 
        if log or len(set(rots))!=len(rots) or not closed: print(i,repr(s),nm[i],len(l),log[:3],closed)
    print('maxit',mxit)
