#!/usr/bin/env python3
"""Generates rocq/theories/LambdaCert.v: an addition chain for lambda*G with slopes
and quotients, checked in Endo.v."""
import os
from gen_order import p, G, step, naf
lam=0x5363ad4cc05c30e0a5261c028812645a122e22ea20816678df02967c1b23bd72
beta=0x7ae96a2b657c07106e64479eac3434e99cf0497512f58995c1396c28719501ee
d=naf(lam)
assert d[0]==1
P=G; out=[]; nG=(G[0],p-G[1])
for z in d[1:]:
    s=step(P,P); out.append(("D",s)); P=s[1:3]
    if z:
        s=step(P,G if z==1 else nG); out.append(("P" if z==1 else "M",s)); P=s[1:3]
assert P==(beta*G[0]%p,G[1])
def h(v): return "(-0x%X)"%-v if v<0 else "0x%X"%v
t="""(** Generated by tools/gen_lambda.py: an addition-subtraction chain for lambda * G. *)
Require Import ZArith List.
From Verif Require Import OrderCert.
Import ListNotations.
Local Open Scope Z_scope.

Definition lambda_chain : list chain_step := [
"""
t+=";\n".join("  CS Op%s %s"%(o," ".join(h(v) for v in s)) for o,s in out)
t+="].\n"
open(os.path.join(os.path.dirname(os.path.abspath(__file__)),"../rocq/theories/LambdaCert.v"),"w").write(t)
