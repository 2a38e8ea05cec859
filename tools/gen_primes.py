#!/usr/bin/env python3
"""Generates rocq/theories/Primes.v: Pocklington certificates for p and n."""
import os
def chain(N,a,e):
    bits=bin(e)[3:]; h=a; out=[]
    for b in bits:
        q=h*h//N; h2=h*h-N*q
        out.append(("true" if b=='1' else "false",q))
        h=a*h2 if b=='1' else h2
    return out,h
p=2**256-2**32-977
n=0xFFFFFFFFFFFFFFFFFFFFFFFFFFFFFFFEBAAEDCE6AF48A03BBFD25E8CD0364141
certs="""107590001 [53,29,7]
20113 [419]
1206781 [20113]
7240687 [1206781]
96557 [239,101]
255515944373312847190720520512484175977 [107590001,7240687,96557]
205115282021455665897114700593932402728804164701536103180137503955397371 [255515944373312847190720520512484175977]
115792089237316195423570985008687907853269984665640564039457584007908834671663 [205115282021455665897114700593932402728804164701536103180137503955397371]
1627771 [1871]
297159362677 [1627771]
28181 [1409]
545358713 [28181]
29047611873442575647497758179 [297159362677,545358713]
341948486974166000522343609283189 [29047611873442575647497758179]
44706919 [9349]
120233 [113,19]
174723607534414371449 [44706919,120233]
115792089237316195423570985008687907852837564279074904382605163141518161494337 [341948486974166000522343609283189,174723607534414371449]"""
out="""(** Primality of the field prime and of the group order, by Pocklington
    certificates (generated by tools/gen_primes.py).  Small exponentiations are
    evaluated directly; the large ones use chains with supplied quotients, or
    folding modulo p and n. *)
Require Import ZArith Znumtheory List Lia.
From Verif Require Import NumTheory Spec.
Import ListNotations.
Local Open Scope Z_scope.

Ltac vmtrue := vm_cast_no_check (eq_refl true).

Lemma pock_cond_intro N q e v u :
  ((1 <? N) && (0 <? q) && (N - 1 =? e * q) && (((v - 1) * u) mod N =? 1))%bool = true ->
  2 ^ e mod N = v mod N -> pock_cond N 2 q.
Proof.
  rewrite !Bool.andb_true_iff, !Z.eqb_eq, !Z.ltb_lt. intros (((HN & Hq) & He) & Hu) Hv.
  split; [exists e; exact He|]. exists u.
  replace ((N - 1) / q) with e by (rewrite He, Z.div_mul by lia; reflexivity).
  etransitivity; [|exact Hu]. rewrite Z.mul_mod, (Zminus_mod (2 ^ e)), Hv, <- Zminus_mod, <- Z.mul_mod by lia. reflexivity.
Qed.

Lemma pow_by_chain N e steps v : 0 < N ->
  ((chain N 2 2 steps =? v) && (chain_exp 1 steps =? e))%bool = true -> 2 ^ e mod N = v mod N.
Proof.
  intros HN. rewrite Bool.andb_true_iff, !Z.eqb_eq. intros [H1 H2]. subst v e.
  symmetry. apply chain_correct; [assumption|lia|reflexivity].
Qed.

Lemma pow_by_powmod N e v : 0 < N -> 0 <= e -> (powmod 2 e N =? v) = true -> 2 ^ e mod N = v mod N.
Proof.
  intros HN He H. apply Z.eqb_eq in H. subst v. rewrite powmod_correct by assumption.
  now rewrite Zmod_mod.
Qed.

Lemma pow_by_red k c e v : 0 < 2 ^ 256 - c ->
  (powred_pos (red256 k c) 2 e =? v) = true -> 2 ^ (Zpos e) mod (2 ^ 256 - c) = v mod (2 ^ 256 - c).
Proof.
  intros Hc H. apply Z.eqb_eq in H. subst v. symmetry. apply powred_pos_correct; [assumption|].
  intros. now apply red256_correct.
Qed.

Lemma pock_one N v : (v mod N =? 1) = true -> 2 ^ (N - 1) mod N = v mod N -> 2 ^ (N - 1) mod N = 1.
Proof. intros H ->. now apply Z.eqb_eq. Qed.

Ltac small_prime := apply (small_prime_check_correct _ 101); [vmtrue|reflexivity].
Ltac small_pow := apply pow_by_powmod; [reflexivity|discriminate|vmtrue].

"""
K=2
def red(c,x):
    for _ in range(K): x=c*(x>>256)+(x&(2**256-1))
    return x
def powred(c,a,e):
    if e==1: return a
    h=powred(c,a,e>>1)
    r=red(c,h*h)
    return a*r if e&1 else r
for line in certs.split("\n"):
    N,l=line.split(" ",1); l=eval(l); N=int(N)
    big = N>2**100; huge= N>2**250
    cN=2**256-N
    K=3 if N==n else 2
    def powpf(e, tag):
        global out
        if huge:
            v=powred(cN,2,e)
            # written for the canonical modulus
            out+="Lemma pow_%s : 2 ^ %d mod %d = %d mod %d.\nProof. exact (pow_by_red %d %d %d %d eq_refl ltac:(vmtrue)). Qed.\n\n"%(tag,e,N,v,N,K,cN,e,v)
            return v,"exact pow_%s"%tag
        if big:
            st,v=chain(N,2,e)
            out+="Lemma pow_%s : 2 ^ %d mod %d = %d mod %d.\nProof.\n  apply (pow_by_chain _ _ [\n    %s]); [reflexivity|vmtrue].\nQed.\n\n"%(tag,e,N,v,N,";\n    ".join("(%s, %d)"%x for x in st))
            return v,"exact pow_%s"%tag
        v=pow(2,e,N)
        return v,"small_pow"
    v1,t1=powpf(N-1,"%d_0"%N)
    assert v1%N==1
    conds=[]
    for i,q in enumerate(l):
        e=(N-1)//q
        v,t=powpf(e,"%d_%d"%(N,i+1))
        u=pow(v-1,-1,N)
        conds.append("    + apply (pock_cond_intro _ _ %d %d %d); [vmtrue|%s]."%(e,v,u,t))
    out+="Lemma prime_%d : prime %d.\nProof.\n"%(N,N)
    out+="  apply (pocklington _ 2 [%s]).\n  - reflexivity.\n"%"; ".join(map(str,l))
    out+="  - apply (pock_one _ %d); [vmtrue|]. %s.\n"%(v1,t1)
    out+="  - cbn [distinct_primes].\n    repeat match goal with\n    | |- _ /\\ _ => split\n    | |- True => exact I\n    | |- ~ _ => cbn [In]; intuition discriminate\n    end.\n"
    for q in l:
        out+="    + %s.\n"%("exact prime_%d"%q if q>=10000 else "small_prime")
    out+="  - repeat apply Forall_cons; [..|apply Forall_nil].\n"+"\n".join(conds)+"\n  - reflexivity.\nQed.\n\n"
out+="""Theorem prime_p : prime p.
Proof. exact prime_%d. Qed.

Theorem prime_n : prime n.
Proof. exact prime_%d. Qed.
"""%(p,n)
open(os.path.join(os.path.dirname(os.path.abspath(__file__)),"../rocq/theories/Primes.v"),"w").write(out)
