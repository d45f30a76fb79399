"""Finds the thresholds used by CertScript.v and writes that file. The Coq checks verify them."""
import re,glob,os
P={'goldilocks':18446744069414584321,'babybear':2013265921,'bls12':52435875175126190479447740508185965837690552500527637822603658699938581184513,'bn256':21888242871839275222246405745257275088548364400416034343698204186575808495617,'pallas':28948022309329048855892746252171976963363056481941560715954676764349967630337,'vesta':28948022309329048855892746252171976963363056481941647379679742748393362948097}
def parse(path):
    src=open(path).read()
    src=re.sub(r'//[^\n]*','',src)
    d={}
    for m in re.finditer(r'pub static ref (\w+): (Vec<Vec<Scalar>>|Vec<Scalar>) = (vec!\[.*?\]);',src,re.S):
        b=m.group(3).replace('vec![','[')
        b=re.sub(r'from_hex\(\s*"([^"]*)"\s*,?\s*\)',r'"\1"',b)
        d[m.group(1)]=eval(b)
    inst=[]
    for m in re.finditer(r'pub static ref (\w+_PARAMS): .*?Params::new\((.*?)\)',src,re.S):
        inst.append((m.group(1),[a.strip() for a in m.group(2).split(',') if a.strip()]))
    return d,inst
from math import comb, gcd
def cl(num, a):
    k=0
    while a**k<num: k+=1
    return k
def thr(p,t,al,M):
    n=p.bit_length()
    fl=n-1-(al-1)//2
    r1=6 if M<=fl*(t+1) else 10
    c2=1+cl(2**min(M,n),al)+cl(t,al)
    c3=cl(min(2**M,p),al)
    if 2**(2*M)<=p**(t+1): c4=cl(2**M,al**(t+1))
    else: c4=cl(p,al**2)
    c5=cl(2**M,al**2)
    return r1,c2,c3,t-1+c4,t-2+c5
def thr2(p,t,al,M):
    n=p.bit_length(); fl=n-1-(al-1)//2
    r1=6 if M<=fl*(t+1) else 10
    a=cl(2**min(M,n),al); b=cl(t,al); c3=cl(min(2**M,p),al)
    c4=cl(2**M,al**(t+1)) if 2**(2*M)<=p**(t+1) else cl(p,al**2)
    c5=cl(2**M,al**2)
    rp=1
    while True:
        rt=t//3; o=5*t+2*rp+rt+rt*3+al; u=rt*3+rp+al
        if comb(o,u)**2>2**(M-1): break
        rp+=1
    return r1,a,b,c3,c4,c5,rp
L=[]
for kind in ('poseidon2','poseidon'):
    for f in ['babybear','bls12','bn256','goldilocks','pallas','vesta']:
        p=P[f]; al=next(a for a in range(3,100) if gcd(a,p-1)==1)
        d,inst=parse(f'/repo/src/{kind}/{kind}_instance_{f}.rs')
        for name,a in inst:
            t,dd,RF,RP=map(int,a[:4]); T=thr2(p,t,al,128)
            rp0=max(r for r in range(1,RP) if -((-r*1075)//1000)==RP)
            rp0=[r for r in range(1,RP+1) if -((-r*1075)//1000)==RP]
            K=max(1+T[1]+T[2],T[3],t-1+T[4])
            rr=[r for r in rp0 if RF-2+r>=K and (RF-2)*(t-1)+r>=t-2+T[5]]
            assert rr,(name,rp0)
            L.append((kind,name,f,p.bit_length(),t,al,RF,RP,T,rr[0]))
seen={}; ss={}
o='''(** * CertScript: the round numbers of the shipped Poseidon2 and Poseidon instances *)
From Coq Require Import ZArith.
From Verif Require Import ModelFields ProofScript.
Local Open Scope Z_scope.

'''
M={}
for (kind,name,f,n,t,al,RF,RP,T,rr) in L:
    k=(f,t,RF,RP)
    th=f"(Thr {' '.join(map(str,T))})"
    s=(t,al,T,RF,RP)
    if s not in ss:
        ss[s]=f'search_{f}_{t}'
        o+=f"Lemma {ss[s]} : search_b {t} {al} 128 {th} {RP+1} {RF} {RP} = true.\nProof. vm_cast_no_check (eq_refl true). Qed.\n"
    if k not in seen:
        seen[k]=f'rounds_{f}_{t}'
        o+=f"Lemma rounds_{f}_{t} : rounds_b p_{f} {n} {t} {al} 128 {RF} {RP} {th} {RF-2} {rr} = true.\nProof. vm_cast_no_check (eq_refl true). Qed.\n"
    M[name]=(ss[s],seen[k])
open('/verif/rocq/theories/CertScript.v','w').write(o)
print(len(seen),len(ss))
