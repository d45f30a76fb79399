#!/usr/bin/env python3
"""Writes rocq/theories/CertMinPoly.v: for every shipped Poseidon2 instance with t <> 3 the characteristic
polynomial f of its internal matrix and, for every prime q | t, polynomials y and r with
x y = x^(p^(t/q)) and r (y^L - 1) = 1 modulo f, where L = lcm(1..4t).

usage: gen_minpoly.py [repo]     (default /repo)"""
import os, re, sys
from math import lcm

REPO = sys.argv[1] if len(sys.argv) > 1 else '/repo'
OUT = os.path.join(os.path.dirname(os.path.abspath(__file__)), '../rocq/theories')
P = {'babybear': 2**31 - 2**27 + 1, 'goldilocks': 2**64 - 2**32 + 1,
     'bls12': 0x73eda753299d7d483339d80809a1d80553bda402fffe5bfeffffffff00000001,
     'bn256': 21888242871839275222246405745257275088548364400416034343698204186575808495617,
     'pallas': 0x40000000000000000000000000000000224698fc094cf91b992d30ed00000001,
     'vesta': 0x40000000000000000000000000000000224698fc0994a8dd8c46eb2100000001}

def parse(path):
    src = re.sub(r'//[^\n]*', '', open(path).read())
    data = {m.group(1): [int(x, 16) for x in re.findall(r'"0x([0-9a-f]+)"', m.group(2))]
            for m in re.finditer(r'pub static ref (\w+): Vec<Scalar> = (vec!\[.*?\]);', src, re.S)}
    inst = [(m.group(1), [a.strip() for a in m.group(2).split(',') if a.strip()])
            for m in re.finditer(r'pub static ref (\w+_PARAMS): .*?Params::new\((.*?)\)', src, re.S)]
    return data, inst

def add(a, b, p):
    n = max(len(a), len(b)); a = a + [0] * (n - len(a)); b = b + [0] * (n - len(b))
    return [(x + y) % p for x, y in zip(a, b)]
def neg(a, p): return [-x % p for x in a]
def mul(a, b, p):
    r = [0] * (len(a) + len(b) - 1)
    for i, x in enumerate(a):
        for j, y in enumerate(b): r[i + j] += x * y
    return [x % p for x in r]
def trim(a):
    a = a[:]
    while a and a[-1] == 0: a.pop()
    return a
def divmod_(a, b, p):
    a = trim(a); b = trim(b); q = [0] * max(1, len(a) - len(b) + 1); inv = pow(b[-1], -1, p)
    while len(a) >= len(b):
        c = a[-1] * inv % p; s = len(a) - len(b); q[s] = c
        for i, y in enumerate(b): a[s + i] = (a[s + i] - c * y) % p
        a = trim(a)
    return q, a
def mod(a, f, p):
    r = divmod_(a, f, p)[1]
    return r + [0] * (len(f) - 1 - len(r))
def power(a, e, f, p):
    r = mod([1], f, p)
    for b in bin(e)[2:]:
        r = mod(mul(r, r, p), f, p)
        if b == '1': r = mod(mul(r, a, p), f, p)
    return r
def inverse(a, f, p):
    r0, r1, u0, u1 = trim(a), trim(f), [1], [0]
    while r1:
        q, r = divmod_(r0, r1, p)
        r0, r1 = r1, r
        u0, u1 = u1, add(u0, neg(mul(q, u1, p), p), p)
    assert len(r0) == 1
    c = pow(r0[0], -1, p)
    return mod([x * c % p for x in u0], f, p)
def charpoly(d, p):          # of all-ones + diag(d)
    f, s = [1], [0]
    for x in d:
        s = add(mul(s, [-x % p, 1], p), f, p)
        f = mul(f, [-x % p, 1], p)
    return add(f, neg(s, p), p)

def zl(l): return '[' + '; '.join(hex(x) for x in l) + ']%Z'

if __name__ == '__main__':
    with open(f'{OUT}/CertMinPoly.v', 'w') as o:
        o.write('(** * CertMinPoly: certificates for the powers of the shipped internal matrices\n\n'
                '    Generated by tools/gen_minpoly.py. *)\nFrom Coq Require Import Uint63.\n'
                'From Verif Require Import Base Field Fp Primes ModelInstances ProofMinPoly.\n')
        for F, p in sorted(P.items()):
            data, inst = parse(f'{REPO}/src/poseidon2/poseidon2_instance_{F}.rs')
            for name, args in inst:
                t = int(args[0])
                if t == 3: continue
                d = [data[a.strip('&*')] for a in args if a.strip('&*') in data][0]
                f = charpoly(d, p); L = lcm(*range(1, 4 * t + 1)); x = mod([0, 1], f, p)
                qs = []
                for q in [q for q in range(2, t + 1) if t % q == 0 and all(q % r for r in range(2, q))]:
                    h = power(x, p ** (t // q), f, p)
                    y = mod(mul(h, inverse(x, f, p), p), f, p)
                    r = inverse(add(power(y, L, f, p), [p - 1], p), f, p)
                    qs.append(f'({q}, {zl(y)},\n   {zl(r)})')
                o.write(f'\nLemma minpoly_{name} : mp_cert P_{F} P_{F}_ok {name}\n  {zl(f[:-1])}\n'
                        f'  {L}%positive [{";".join(qs)}] = true.\nProof. vm_cast_no_check (eq_refl true). Qed.\n')
