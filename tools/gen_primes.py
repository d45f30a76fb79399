#!/usr/bin/env python3
"""Writes rocq/theories/Primes.v: Pocklington certificates for the six moduli of src/fields.

The factorisations below were found offline (trial division, Pollard rho, ECM); nothing here is
trusted, Coq checks every certificate."""
import os, sys

MODULI = dict(
    babybear=(2013265921, 31, {2: 27, 3: 1, 5: 1}),
    bls12=(52435875175126190479447740508185965837690552500527637822603658699938581184513, 7,
           {2: 32, 3: 1, 11: 1, 19: 1, 10177: 1, 125527: 1, 859267: 1, 906349: 2, 2508409: 1,
            2529403: 1, 52437899: 1, 254760293: 2}),
    bn256=(21888242871839275222246405745257275088548364400416034343698204186575808495617, 7,
           {2: 28, 3: 2, 13: 1, 29: 1, 983: 1, 11003: 1, 237073: 1, 405928799: 1,
            1670836401704629: 1, 13818364434197438864469338081: 1}),
    goldilocks=(18446744069414584321, 7, {2: 32, 3: 1, 5: 1, 17: 1, 257: 1, 65537: 1}),
    pallas=(28948022309329048855892746252171976963363056481941560715954676764349967630337, 5,
            {2: 32, 3: 1, 463: 1, 539204044132271846773: 1,
             8999194758858563409123804352480028797519453: 1}),
    vesta=(28948022309329048855892746252171976963363056481941647379679742748393362948097, 5,
           {2: 32, 3: 2, 1709: 1, 24859: 1, 1690502597179744445941507: 1,
            10427374428728808478656897599072717: 1}),
)
# factored part of q-1 for the prime factors above that are too large for trial division
SUB = {
    405928799: {2: 1, 11: 1, 3691: 1, 4999: 1},
    1670836401704629: {2: 2, 3: 4, 5156902474397: 1},
    5156902474397: {2: 2, 107: 1, 12048837557: 1},
    12048837557: {2: 2, 7: 2, 661: 1, 93001: 1},
    13818364434197438864469338081: {2: 5, 5: 1, 823: 1, 65865678001877903: 1},
    65865678001877903: {2: 1, 83: 1, 379: 1, 1637: 1, 639533339: 1},
    639533339: {2: 1, 229: 1, 853: 1, 1637: 1},
    539204044132271846773: {2: 2, 3: 5, 89: 1, 14923: 1, 417677162933: 1},
    417677162933: {2: 2, 59: 1, 1973: 1, 897019: 1},
    8999194758858563409123804352480028797519453:
        {2: 2, 3: 4, 11: 1, 2531: 1, 115603: 1, 1197907: 1, 22160661629: 1, 325086459374267: 1},
    1690502597179744445941507: {2: 1, 3: 1, 13: 1, 4129989133: 1, 5247740253619: 1},
    5247740253619: {2: 1, 3: 3, 17: 1, 71: 1, 80513981: 1},
    10427374428728808478656897599072717:
        {2: 2, 294793: 1, 4229279: 1, 399082391: 1, 5239247429827: 1},
}
LIMIT = 2**28

def small_factor(n):
    f, q = {}, 2
    while q * q <= n and q < 10**6:
        while n % q == 0:
            f[q] = f.get(q, 0) + 1
            n //= q
        q += 1
    if n > 1: f[n] = f.get(n, 0) + 1
    return f

def limbs(z, n): return '[' + '; '.join(str((z >> (29 * i)) % 2**29) for i in range(n)) + ']'
def params(p):
    L = 1
    while 4 * p > 2**(29 * L): L += 1
    R, B = 2**(29 * L), 2**29
    return (f"(MkParams {L} {limbs(p, L)} {limbs(R - p, L)} {(-pow(p, -1, B)) % B} "
            f"{limbs(R % p, L)} {limbs(R * R % p, L)})%uint63")

out, done = [], set()
def emit(n, name=None, g=None, f=None):
    if n in done: return
    done.add(n)
    if n < LIMIT and name is None:
        fuel = int(n**.5) + 3
        out.append(f"Lemma prime_{n} : prime {n}.\nProof. apply (small_check_ok (Z.to_nat {fuel})); "
                   f"[rewrite Z2Nat.id; lia|vm_cast_no_check (eq_refl true)]. Qed.")
        return
    full = name is not None
    if not full: f = SUB[n] if n in SUB else small_factor(n - 1)
    use, F = {}, 1
    for q, e in sorted(f.items(), reverse=not full):
        use[q] = e; F *= q**e
        if not full and F * F > n: break
    use = dict(sorted(use.items()))
    assert (n - 1) % F == 0 and F * F > n
    c = (n - 1) // F
    assert not full or c == 1
    a = g if full else 2
    while True:
        if pow(a, n - 1, n) == 1:
            try:
                us = {q: pow(pow(a, (n - 1) // q, n) - 1, -1, n) for q in use}
                break
            except ValueError: pass
        assert not full
        a += 1
    for q in use: emit(q)
    nm = name if full else str(n)
    N = f"p_{name}" if full else str(n)
    out.append(f"Definition P_{nm} : mparams :=\n  {params(n)}.\n"
               f"Lemma P_{nm}_ok : params_ok P_{nm} = true.\nProof. vm_cast_no_check (eq_refl true). Qed.\n"
               f"Definition cert_{nm} : list pitem := [\n  " +
               ";\n  ".join(f"PI {q} {e} {(n - 1) // q} {us[q]}" for q, e in use.items()) + "].")
    A = f"g_{name}" if full else str(a)
    out.append(f"Lemma facts_{nm} : pock_facts {N} {A} {c} cert_{nm}.\n"
               f"Proof. apply (pock_check_ok P_{nm} P_{nm}_ok). vm_cast_no_check (eq_refl true). Qed.\n"
               f"Lemma cert_{nm}_primes : forall it, In it cert_{nm} -> prime (iq it).\n"
               "Proof.\n  intros it H.\n" +
               "".join(f"  destruct H as [<-|H]; [exact prime_{q}|].\n" for q in use) +
               "  destruct H.\nQed.\n"
               f"Lemma prime_{nm} : prime {N}.\n"
               f"Proof. exact (pocklington _ _ _ _ facts_{nm} cert_{nm}_primes). Qed.")

for name, (p, g, f) in MODULI.items(): emit(p, name, g, f)
here = os.path.dirname(os.path.abspath(__file__))
with open(os.path.join(here, '../rocq/theories/Primes.v'), 'w') as o:
    o.write("(** * Primes: certificates that the moduli of src/fields are prime.\n\n"
            "    Generated by tools/gen_primes.py; everything is checked here. *)\n"
            "From Coq Require Import Uint63.\nFrom Verif Require Import Base Field Fp Pock ModelFields.\n"
            "Local Open Scope Z_scope.\n\n" + "\n\n".join(out) + "\n")
