"""Finds the arguments of the Grain checks and writes CertGrainP2.v and CertGrainPS.v (run from anywhere).
The Coq checks recompute everything; this script only supplies list lengths and the rejected diagonals."""
import re,glob,os
P={'goldilocks':18446744069414584321,'babybear':2013265921,'bls12':52435875175126190479447740508185965837690552500527637822603658699938581184513,'bn256':21888242871839275222246405745257275088548364400416034343698204186575808495617,'pallas':28948022309329048855892746252171976963363056481941560715954676764349967630337,'vesta':28948022309329048855892746252171976963363056481941647379679742748393362948097}
def parse(path):
    src=open(path).read()
    src=re.sub(r'//[^\n]*','',src)
    d={}
    for m in re.finditer(r'pub static ref (\w+): (Vec<Vec<Scalar>>|Vec<Scalar>) = (vec!\[.*?\]);',src,re.S):
        b=m.group(3).replace('vec![','[')
        b=re.sub(r'from_hex\(\s*"([^"]*)"\s*,?\s*\)',r'"\1"',b)
        d[m.group(1)]=eval(b)
    inst=[]
    for m in re.finditer(r'pub static ref (\w+_PARAMS): .*?Params::new\((.*?)\)',src,re.S):
        inst.append((m.group(1),[a.strip() for a in m.group(2).split(',') if a.strip()]))
    return d,inst
rej={'GOLDILOCKS_8':4,'GOLDILOCKS_12':9,'GOLDILOCKS_16':47,'GOLDILOCKS_20':7,'BABYBEAR_16':19,'BABYBEAR_24':5,'BLS_4':1,'BLS_8':9,'PALLAS_4':1,'PALLAS_8':7}
cnt=0
def grain(field,sbox,n,t,RF,RP):
    global cnt
    cnt=0
    s=f"{field:02b}{sbox:04b}{n:012b}{t:012b}{RF:010b}{RP:010b}"+"1"*30
    b=[int(c) for c in s]
    def step():
        global cnt
        cnt+=1
        nb=b[62]^b[51]^b[38]^b[23]^b[13]^b[0]; b.pop(0); b.append(nb); return nb
    for _ in range(160): step()
    while True:
        nb=step()
        while nb==0:
            step(); nb=step()
        yield step()
out2=[];outs=[]
tot=0
for f,p in P.items():
    n=p.bit_length()
    for kind in (2,1):
        d,inst=parse(f'/repo/src/poseidon2/poseidon2_instance_{f}.rs' if kind==2 else f'/repo/src/poseidon/poseidon_instance_{f}.rs')
        for name,a in inst:
            t,dd,RF,RP=map(int,a[:4])
            g=grain(1,0 if kind==2 else 1,n,t,RF,RP)
            nd=0
            def rb():
                global nd
                nd+=1
                v=0
                for _ in range(n): v=2*v+next(g)
                return v
            for i in range(RF*t+RP if kind==2 else (RF+RP)*t):
                v=rb()
                while v>=p: v=rb()
            key=name.replace('POSEIDON2_','').replace('POSEIDON_','').replace('_PARAMS','')
            r=0
            if kind==2 and t>=4:
                r=rej[key]-1
                dr=[[rb() for _ in range(t)] for _ in range(r+1)][:r]
            else: dr=[]
            if kind==1:
                for _ in range(2*t): rb()
            w=(cnt-160)//16+2
            tot+=w*8
            (out2 if kind==2 else outs).append((name,f,w,nd,dr if kind==2 else []))
print(tot)
order=['babybear','bls12','bn256','goldilocks','pallas','vesta']
H='''(** * %s: checks of the shipped %s constants against the Grain generator.
    The arguments (numbers of words and of draws, rejected diagonals) are those found by tools/gen_grain.py. *)
From Coq Require Import Uint63.
From Verif Require Import Base Field Fp Primes ModelInstances ProofGrain3.

'''
o=H%('CertGrainP2','Poseidon2')
for (nm,f,w,nd,r) in out2:
    rs=';'.join('\n  ['+'; '.join(map(hex,g))+']' for g in r)
    o+=f"Definition rejected_{nm} : list (list Z) := [{rs}]%Z.\n"
    o+=f"Lemma grain_{nm} : p2_grain_b (N.to_nat {w}) (N.to_nat {nd}) rejected_{nm} {nm} = true.\nProof. vm_cast_no_check (eq_refl true). Qed.\n"
open('/verif/rocq/theories/CertGrainP2.v','w').write(o)
o=H%('CertGrainPS','Poseidon')
for (nm,f,w,nd,r) in outs:
    o+=f"Lemma grain_{nm} : ps_grain_b P_{f} P_{f}_ok (N.to_nat {w}) (N.to_nat {nd}) {nm} = true.\nProof. vm_cast_no_check (eq_refl true). Qed.\n"
open('/verif/rocq/theories/CertGrainPS.v','w').write(o)
