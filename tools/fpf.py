from sym import *
res=json.load(open('sym.json'))
fp={}
for nm,tab,lab in(('full',HALL,NUM),('default',DHALL,DNUM)):
    nums=set(); out=[]
    for i,s in enumerate(tab):
        n=parse(s); L,core,_,_,gens=gen(n)
        w=None
        for x,m in enumerate(core):
            if m[0]==I3: continue
            if cert(n[1],[m]) is None:
                p=fixed(L,[m]); assert p is not None
                w=p;break
        out.append(w)
        if w is None: nums.add(leading(lab[i]))
        elif leading(lab[i]) in nums: print('mixed',lab[i])
    print(nm,sorted(nums)); fp[nm]=out
json.dump(fp,open('fpf.json','w'))
