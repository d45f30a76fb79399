"""Writes CertScriptFloat.v and ProofScriptFloat3.v."""
import os; os.chdir(os.path.join(os.path.dirname(os.path.abspath(__file__)), '..', 'rocq', 'theories'))
from math import comb
def ks(t,al):
    r=[]
    for rf in range(6,100,2):
        rp=1
        while True:
            q=t//3; ov=(rf-1)*t+rp+q+q*(rf//2)+rp+al; un=q*(rf//2)+rp+al
            if comb(ov,un)**2>2**127: break
            rp+=1
        r.append(rp)
    return '['+'; '.join(map(str,r))+']'
inst=[('babybear',31,16,7,'Thr 6 12 2 12 3 23 1'),('babybear',31,24,7,'Thr 6 12 2 12 2 23 1'),('bls12',255,2,5,'Thr 6 56 1 56 19 28 27'),('bls12',255,3,5,'Thr 6 56 1 56 14 28 22'),('bls12',255,4,5,'Thr 6 56 1 56 12 28 20'),('bls12',255,8,5,'Thr 6 56 2 56 7 28 12'),('bn256',254,3,5,'Thr 6 56 1 56 14 28 22'),('goldilocks',64,8,7,'Thr 6 23 2 23 6 23 11'),('goldilocks',64,12,7,'Thr 6 23 2 23 4 23 1'),('goldilocks',64,16,7,'Thr 6 23 2 23 3 23 1'),('goldilocks',64,20,7,'Thr 6 23 2 23 3 23 1'),('pallas',255,3,5,'Thr 6 56 1 56 14 28 22'),('pallas',255,4,5,'Thr 6 56 1 56 12 28 20'),('pallas',255,8,5,'Thr 6 56 2 56 7 28 12'),('vesta',255,3,5,'Thr 6 56 1 56 14 28 22')]
o='''(** * CertScriptFloat: the inequalities of the shipped instances keep away from their bounds (C75) *)
From Coq Require Import ZArith List.
From Verif Require Import ModelFields ProofScript ProofScriptFloat.
Import ListNotations.
Local Open Scope Z_scope.

'''
for t,al in sorted({(i[2],i[3]) for i in inst}):
    o+=f'Lemma away_{t}_{al} : away_ok {t} {al} 128 {ks(t,al)} = true.\nProof. vm_cast_no_check (eq_refl true). Qed.\n'
for f,n,t,al,T in inst:
    o+=f'Lemma clear_{f}_{t} : clear_ok p_{f} {n} {t} {al} 128 ({T}) = true.\nProof. vm_cast_no_check (eq_refl true). Qed.\n'
open('CertScriptFloat.v','w').write(o)
o='''(** * ProofScriptFloat3: round numbers of the shipped instances in spite of rounding errors (C75) *)
From Coq Require Import Reals ZArith.
From Verif Require Import Base Field ModelFields ModelInstances SpecRounds ModelScript ModelScriptFloat ProofScript ProofScript2 ProofScriptFloat ProofScriptFloat2 CertScriptFloat.
Local Open Scope nat_scope.

Definition rounds_fl_claim (p : Z) (t d rf rp : nat) : Prop := forall n, bits n p ->
  (exists sat, ranged sat p (Z.of_nat n) (Z.of_nat t) (Z.of_nat d) 128) /\\
  (forall sat scale, ranged sat p (Z.of_nat n) (Z.of_nat t) (Z.of_nat d) 128 -> scales scale ->
     find_FD_round_numbers_fl sat scale (Z.of_nat t) true = (Z.of_nat rf, Z.of_nat rp)).

Lemma claim_fl_intro p n t d rf rp T ks : bits n p -> rounds_claim p t d rf rp ->
  clear_ok p (Z.of_nat n) (Z.of_nat t) (Z.of_nat d) 128 T = true -> away_ok (Z.of_nat t) (Z.of_nat d) 128 ks = true -> rounds_fl_claim p t d rf rp.
Proof.
  intros Hn HR H1 H2 m Hm. rewrite (bits_fun _ _ _ Hm Hn). destruct (HR n Hn) as [D [H _]]. split.
  - destruct D as [s Ds]. exists s. apply exact_computed; [lia|exact Ds].
  - exact (rounds_fl_ok _ _ _ _ _ _ _ _ _ H1 H2 D H).
Qed.

'''
rr={}
import re
for m in re.finditer(r'Lemma (claim_rounds_(\w+?)_(\d+)) : rounds_claim p_\w+ (\d+) (\d+) (\d+) (\d+)\.',open('ProofScript2.v').read()):
    rr[(m[2],int(m[3]))]=(m[1],m[6],m[7])
for f,n,t,al,T in inst:
    c,rf,rp=rr[(f,t)]
    o+=f'Lemma claim_fl_{f}_{t} : rounds_fl_claim p_{f} {t} {al} {rf} {rp}.\nProof. refine (claim_fl_intro p_{f} {n} {t} {al} {rf} {rp} _ _ _ {c} clear_{f}_{t} away_{t}_{al}). split; [apply Z.leb_le|apply Z.ltb_lt]; vm_compute; reflexivity. Qed.\n'
for k,nm in (('p2','qi'),('ps','si')):
    o+=f'\nTheorem {k}_round_numbers_fl I : In I {k}_instances -> rounds_fl_claim ({nm}_p I) ({nm}_t I) ({nm}_d I) ({nm}_rf I) ({nm}_rp I).\nProof.\n  intros H. unfold {k}_instances in H. cbn [In] in H.\n'
    for f,n,t,al,T in inst: o+=f'  destruct H as [<-|H]; [exact claim_fl_{f}_{t}|].\n'
    o+='  destruct H.\nQed.\n'
open('ProofScriptFloat3.v','w').write(o)
o=open('ProofScriptFloat3.v').read()
o=o.replace("From Coq Require Import Reals ZArith.","From Coq Require Import Reals Lra ZArith Znumtheory Zpow_facts.").replace("SpecRounds ModelScript","SpecRounds SpecDouble ModelScript").replace("ProofScript ProofScript2","ProofDouble ProofScript ProofScript2")
o+='''
Lemma security_margin rp : (1 <= rp < 2 ^ 20)%Z -> (exists k, scaled rp k) /\\ (forall k, scaled rp k -> is_ceil (1075 / 1000 * IZR rp)%R k).
Proof.
  intros H. split; [eexists; apply scaled_exists; exact H|]. intros k Hk. apply scale_ok in Hk; [|exact H]. 
  assert (A : (1000 * (k - 1) < 1075 * rp <= 1000 * k)%Z).
  { rewrite Hk. pose proof (Z.div_mod (rp * 1075 + 999) 1000 ltac:(lia)). pose proof (Z.mod_pos_bound (rp * 1075 + 999) 1000 ltac:(lia)). lia. }
  destruct A as [A1 A2]. apply IZR_lt in A1. apply IZR_le in A2. rewrite !mult_IZR, minus_IZR in A1. rewrite !mult_IZR in A2. split; lra.
Qed.

Lemma not_double_1075 : ~ double (1075 / 1000)%R.
Proof.
  intros [m [e [_ [_ E]]]].
  assert (P5 : forall j, (0 <= j)%Z -> ~ (5 | 43 * 2 ^ j)%Z).
  { intros j Hj D. apply prime_mult in D; [|exact prime_5']. destruct D as [D|D]; [apply Z.mod_divide in D; [discriminate D|lia]|].
    apply prime_power_prime in D; [discriminate D|exact Hj|exact prime_5'|exact prime_2]. }
  destruct (Z.le_gt_cases 0 e) as [H|H].
  - rewrite p2_IZR, <- mult_IZR in E by exact H.
    assert (Q : (43 = 40 * (m * 2 ^ e))%Z) by (apply eq_IZR; rewrite (mult_IZR 40); lra). lia.
  - replace e with (- (- e))%Z in E by lia. rewrite p2_neg in E by lia. set (j := (- e)%Z) in *. pose proof (pow_ge_1 j ltac:(lia)) as J.
    apply (P5 j ltac:(lia)). exists (8 * m)%Z. apply eq_IZR. rewrite !mult_IZR.
    assert (R : (1075 / 1000 * IZR (2 ^ j) = IZR m)%R) by (rewrite E; field; lra). lra.
Qed.
'''
o=o.replace("Lemma not_double_1075",'''Lemma prime_5' : prime 5.
Proof.
  apply prime_intro; [lia|]. intros n Hn. apply Zgcd_1_rel_prime.
  assert (n = 1 \\/ n = 2 \\/ n = 3 \\/ n = 4)%Z as [-> | [-> | [-> | ->]]] by lia; reflexivity.
Qed.
Lemma not_double_1075''')
open('ProofScriptFloat3.v','w').write(o)
