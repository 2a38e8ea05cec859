import math,sys
sys.path.insert(0,'/tmp/sg')
from s import hull,cr,sub
# h=1 const-time 590; h=2 var 744
h=int(sys.argv[1]); N=int(sys.argv[2]); rho=float(sys.argv[3]); marg=float(sys.argv[4]); PB=int(sys.argv[5]); out=sys.argv[6]
KX=int(sys.argv[7]); KM=40; BITS=256.0
def steps(k): return 2*k+h
# primal forward (float)
R={n:[] for n in range(N+1)}
R[0]=hull([(1.0,0.0),(1.0,1.0),(-1.0,0.0),(-1.0,-1.0)])
for n in range(1,N+1):
    P=[]
    for k in range(KM):
        q=n-steps(k)
        if q<0: break
        if not R[q]: continue
        sc=2.0**(rho*steps(k))
        ts=[2.0**-(k+h),1-2.0**-(k+h)] if k<KX else [0.0,1.0]
        if k>KX: continue
        for t in set(ts):
            for (f,g) in R[q]:
                P.append((g/2**k*sc,(t*g/2**k-f/2**(k+h))*sc))
    # nested: D_{n-2}/2 in D_n  <->  R_n /2 ... primal: R_{n-2}->R_n factor 1/2
    if n>=2:
        for (f,g) in R[n-2]: P.append((f/2*2.0**(2*rho),g/2*2.0**(2*rho)))
    R[n]=hull(P) if P else []
LIM=2.0**(rho*N-BITS)
def ok(X,r):
    L=LIM*(1-marg*(1-r/N))
    return all(abs(X[0]*a+X[1]*b)<=L for a,b in R[N-r])
def simplify(H,r):
    n=len(H); m=n//2
    if m<3: return H[:m]
    V=H[:m]
    while len(V)>2:
        m=len(V)
        def g(i):
            s=1
            while i>=m: i-=m; s=-s
            while i<0: i+=m; s=-s
            return (s*V[i][0],s*V[i][1])
        best=None
        for i in range(m):
            A,B,C,Dd=g(i-1),g(i),g(i+1),g(i+2)
            d1=sub(B,A); d2=sub(C,Dd)
            den=cr(d1,d2)
            if den>=-1e-300: continue
            s=cr(sub(C,B),d2)/den
            X=(B[0]+s*d1[0],B[1]+s*d1[1])
            D0=cr(B,C)
            ex=(cr(X,C)+cr(B,X))/D0-1
            if ex<0: continue
            if not ok(X,r): continue
            if best is None or ex<best[0]: best=(ex,i,X)
        if best is None: break
        ex,i,X=best
        if i<m-1: V[i]=X; del V[i+1]
        else: V[m-1]=X; del V[0]
    return V
# integer D: list half vertices, exponent e_r
def E(r): return PB+int(rho*r)
D={}
def maps(r):
    # yields (list of integer points from D[q], s) meaning point/2^(s+e_r) ; s shift
    res=[]
    for k in range(KX+1):
        q=r-steps(k)
        if q<0: continue
        taus=sorted({1,2**(k+h)-1}) if k<KX else [0,2**(k+h)]
        for tau in taus:
            res.append((k,tau,[(-b*2**k,2**(k+h)*a+tau*b) for a,b in D[q]],2*k+h+E(q)-E(r)))
    if r>=2: res.append((-1,0,list(D[r-2]),1+E(r-2)-E(r)))
    return res
def edges(V):
    W=V+[(-a,-b) for a,b in V]
    n=len(W)
    return [(W[i],W[(i+1)%n],cr(W[i],W[(i+1)%n])) for i in range(n)]
def walk(pts,s,ed,o):
    n=len(ed); i=o; c=0
    for P in pts:
        while True:
            if i>=o+n+n: return None
            v,w,d=ed[i%n]
            c+=1
            if cr(P,w)>=0: break
            i+=1
        al=cr(P,w); be=cr(v,P)
        if be<0: return None
        if al+be>d*2**s: return None
    return c
def check(r,V):
    ed=edges(V)
    if any(d<=0 for _,_,d in ed): return None
    offs=[]; cnt=0
    for (k,tau,pts,s) in maps(r):
        best=None
        # locate first point
        P=pts[0]; o=None
        for i,(v,w,d) in enumerate(ed):
            if cr(v,P)>=0 and cr(P,w)>=0: o=i;break
        if o is None: return None
        c=walk(pts,s,ed,o)
        if c is None: return None
        offs.append(o); cnt+=c
    return offs,cnt
Offs={}; tot=0; cnt=0
for r in range(0,N+1):
    if r<h or r<2:
        # base: |g| < 2^(ceil(r/2)) plus bounding |f| (needs 2-dim: add tiny)
        pass
    P=[]
    base=[(0.0,2.0**-((r+2-h)//2))] if r<2 else []
    for (a,b) in base: P.append((a*2**E(r),b*2**E(r)))
    for (k,tau,pts,s) in maps(r):
        for a,b in pts: P.append((a/2.0**s,b/2.0**s))
    P+= [(-a,-b) for a,b in P]
    # thicken so that polygon is 2-dimensional
    if r<2: P+=[(1.0,0.0),(-1.0,0.0)]
    H=hull(P)
    sc=2.0**(rho*r-E(r))
    Hs=[(a*sc,b*sc) for a,b in H]
    V=simplify(Hs,r)
    for grow in [0,1,2,4,8,16,32,64,256]:
        f=1+grow*2.0**-PB
        VI=[(round(a/sc*f),round(b/sc*f)) for a,b in V]
        # dedupe
        W=[]
        for v in VI:
            if not W or W[-1]!=v: W.append(v)
        if len(W)>1 and W[0]==(-W[-1][0],-W[-1][1]): W.pop()
        D[r]=W
        res=check(r,W)
        okb=all(any(cr(v,(a,b))>=0 and cr((a,b),w)>=0 and cr((a,b),w)+cr(v,(a,b))<=d for v,w,d in edges(W)) for a,b in [(0,2**(E(r)-(r+2-h)//2))]) if r<2 else True
        if res and okb: break
    else:
        print('FAIL',r,len(W)); sys.exit(1)
    Offs[r]=res[0]; cnt+=res[1]; tot+=len(W)
    m=max(max(abs(a),abs(a+b)) for a,b in W)
    d=E(r)-math.log2(m)
    if r<4 or r%100==0 or r>N-2: print(r,len(H)//2,len(W),d,grow)
p=2**256-2**32-977
assert all(abs(a)*p<2**E(N) and abs(a+b)*p<2**E(N) for a,b in D[N])
print('total',tot,'walk steps',cnt)
import json
json.dump({'h':h,'N':N,'D':[D[r] for r in range(N+1)],'E':[E(r) for r in range(N+1)],'O':[Offs[r] for r in range(N+1)]},open(out,'w'))
