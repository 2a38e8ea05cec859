#!/usr/bin/env python3
"""Generates rocq/theories/GenTable.v (the 11x32 table literal of
src/precomputed_ecmult_gen.c for COMB_BLOCKS 11, COMB_TEETH 6, COMB_SPACING 4) and
rocq/theories/GenTableCert.v (slopes and quotients from which GenTableProof.v checks
every entry)."""
import os,re
from gen_order import p,n,G,step
here=os.path.dirname(os.path.abspath(__file__))
out=os.path.join(here,"../rocq/theories/")
src=open("/repo/src/precomputed_ecmult_gen.c").read().split("\n")
i=next(k for k,l in enumerate(src) if "COMB_BLOCKS == 11) && (COMB_TEETH == 6) && (COMB_SPACING == 4" in l)
j=next(k for k in range(i+1,len(src)) if src[k].startswith("#"))
tab=[];lo,hi=i+2,j
for l in src[i+1:j]:
    m=re.match(r"(\{?)S\(([0-9a-f,]*)\)",l)
    w=[int(x,16) for x in m.group(2).split(",")]
    assert len(w)==16
    x=y=0
    for a in w[:8]: x=x<<32|a
    for a in w[8:]: y=y<<32|a
    if m.group(1): tab.append([])
    tab[-1].append((x,y))
assert len(tab)==11 and all(len(b)==32 for b in tab)
def mul(k,P):
    R=None
    while k:
        if k&1: R=P if R is None else step(R,P)[1:3]
        P=step(P,P)[1:3]; k>>=1
    return R
def h(v): return "(-0x%X)"%-v if v<0 else "0x%X"%v
H=mul((n+1)//2,G)
assert step(H,H)[1:3]==G
dbls=[];P=H;pts=[H]
for _ in range(264):
    s=step(P,P); dbls.append(s); P=s[1:3]; pts.append(P)
U=[pts[4*k] for k in range(66)]; D=[pts[4*k+1] for k in range(66)]
blocks=[]
for b in range(11):
    S=U[6*b]; sums=[]
    for t in range(1,6):
        s=step(S,U[6*b+t]); sums.append(s); S=s[1:3]
    assert tab[b][0]==(S[0],p-S[1])
    ent=[tab[b][0]];lev=[]
    for t in range(5):
        L=[]
        new=[]
        for e in ent:
            s=step(e,D[6*b+t]); L.append((s[0],)+s[3:]); new.append(s[1:3])
        lev.append(L); ent+=new
    assert ent==tab[b]
    blocks.append((sums,lev))
t="""(** Generated by tools/gen_table.py: the comb table of src/precomputed_ecmult_gen.c
    (lines %d-%d, COMB_BLOCKS 11, COMB_TEETH 6, COMB_SPACING 4), each entry as the
    two 256-bit numbers whose 32-bit words the C macro S(...) lists. *)
Require Import ZArith List.
Import ListNotations.
Local Open Scope Z_scope.

(** src/precomputed_ecmult_gen.c:10-%d secp256k1_ecmult_gen_prec_table. *)
Definition gen_table_literal : list (list (Z * Z)) := [
"""%(lo,hi,hi)
t+=";\n".join("  ["+";\n   ".join("(%s, %s)"%(h(x),h(y)) for x,y in b)+"]" for b in tab)+"].\n"
open(out+"GenTable.v","w").write(t)
t="""(** Generated by tools/gen_table.py: the points 2^i * (G/2) and, for each entry of
    the comb table, slopes and quotients certifying the additions that produce it. *)
Require Import ZArith List.
Import ListNotations.
Local Open Scope Z_scope.

(** The point G/2. *)
Definition half_G_cert : Z * Z := (%s, %s).
(** Doublings: slope, result, quotients. *)
Inductive dstep := DS (l x3 y3 k1 k2 k3 : Z).
Definition dbl_cert : list dstep := [
"""%(h(H[0]),h(H[1]))
t+=";\n".join("  DS "+" ".join(map(h,s)) for s in dbls)+"].\n"
t+="""(** Per block: the sum of its six points, then for each tooth the slopes of the additions. *)
Inductive lstep := LS (l k1 k2 k3 : Z).
Definition block_cert : list (list dstep * list (list lstep)) := [
"""
t+=";\n".join("  (["+";\n    ".join("DS "+" ".join(map(h,s)) for s in sums)+"],\n   ["+";\n    ".join("["+"; ".join("LS "+" ".join(map(h,s)) for s in L)+"]" for L in lev)+"])" for sums,lev in blocks)+"].\n"
open(out+"GenTableCert.v","w").write(t)
