#!/usr/bin/env python3
"""Generates rocq/theories/OrderCert.v: an addition chain for (n-1)*G with slopes
and quotients, checked in Curve.v."""
import os
p=2**256-2**32-977
n=0xFFFFFFFFFFFFFFFFFFFFFFFFFFFFFFFEBAAEDCE6AF48A03BBFD25E8CD0364141
G=(0x79BE667EF9DCBBAC55A06295CE870B07029BFCDB2DCE28D959F2815B16F81798,0x483ADA7726A3C4655DA4FBFC0E1108A8FD17B448A68554199C47D08FFB10D4B8)
def step(P,Q):
    x1,y1=P; x2,y2=Q
    if P==Q:
        l=3*x1*x1*pow(2*y1,-1,p)%p; k1=(l*(2*y1)-3*x1*x1); 
    else:
        l=(y2-y1)*pow(x2-x1,-1,p)%p; k1=l*(x2-x1)-(y2-y1)
    x3=(l*l-x1-x2)%p; y3=(l*(x1-x3)-y1)%p
    k2=l*l-x1-x2-x3; k3=l*(x1-x3)-y1-y3
    assert k1%p==k2%p==k3%p==0
    return (l,x3,y3,k1//p,k2//p,k3//p)
def naf(k):
    d=[]
    while k:
        if k&1:
            z=2-(k&3); k-=z
        else: z=0
        d.append(z); k>>=1
    return d[::-1]
if __name__=="__main__":
    d=naf(n-1)
    assert d[0]==1
    P=G; out=[]; nG=(G[0],p-G[1])
    for z in d[1:]:
        s=step(P,P); out.append(("D",s)); P=s[1:3]
        if z:
            s=step(P,G if z==1 else nG); out.append(("P" if z==1 else "M",s)); P=s[1:3]
    assert P==nG
    def h(v): return "(-0x%X)"%-v if v<0 else "0x%X"%v
    t="""(** Generated by tools/gen_order.py: an addition-subtraction chain for
    (n - 1) * G.  Each entry gives the operation (doubling, adding G, subtracting
    G), the slope, the resulting point and three quotients by p. *)
Require Import ZArith List.
Import ListNotations.
Local Open Scope Z_scope.

Inductive chain_op := OpD | OpP | OpM.
Inductive chain_step := CS (op : chain_op) (l x3 y3 k1 k2 k3 : Z).

Definition order_chain : list chain_step := [
"""
    t+=";\n".join("  CS Op%s %s"%(o," ".join(h(v) for v in s)) for o,s in out)
    t+="].\n"
    open(os.path.join(os.path.dirname(os.path.abspath(__file__)),"../rocq/theories/OrderCert.v"),"w").write(t)
