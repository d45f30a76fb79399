"""Writes rocq/theories/CertReject.v: for every diagonal that the script rejects, a proper factor h of the
characteristic polynomial of all-ones + diag and a nonzero vector w with h(M) w = 0 (h without leading 1)."""
import random, os, sys
sys.argv = sys.argv[:1]
from gen_minpoly import P, OUT, add, neg, trim, divmod_, mod, power, charpoly
import gen_grain
random.seed(1)
def gcd(a, b, p):
    a, b = trim(a), trim(b)
    while b: a, b = b, divmod_(a, b, p)[1]
    c = pow(a[-1], -1, p); return [x * c % p for x in a]
def factor(f, p):
    t = len(f) - 1; x = mod([0, 1], f, p); h = x
    g = gcd(f, [i * c % p for i, c in enumerate(f)][1:], p)
    if len(g) > 1: return g
    for k in range(1, t // 2 + 1):
        h = power(h, p, f, p)
        g = gcd(add(h, neg(x, p), p), f, p)
        if 1 < len(g) < len(f): return g
        if len(g) == len(f):
            while True:
                r = [random.randrange(p) for _ in range(t)]
                u = power(r, (p**k - 1) // 2, f, p)
                g = gcd(add(u, [p - 1], p), f, p)
                if 1 < len(g) < len(f): return g
def japply(d, x, p):
    s = sum(x); return [(a * b + s) % p for a, b in zip(d, x)]
def jact(d, g, v, p):
    r = [0] * len(v)
    for c in reversed(g): r = [(c * a + b) % p for a, b in zip(v, japply(d, r, p))]
    return r
o = '''(** * CertReject: certificates that the diagonals rejected by the generation script fail its check.
    Generated by tools/gen_reject.py. *)
From Coq Require Import Uint63.
From Verif Require Import Base Field Fp Primes ModelInstances CertGrainP2 ProofReject.

'''
def zl(l): return '[' + '; '.join(map(hex, l)) + ']%Z'
for (nm, f, w, nd, R) in gen_grain.out2:
    p = P[f]; certs = []
    for g in R:
        d = [(z - 1) % p for z in g]; t = len(d)
        c = charpoly(d, p); h = factor(c, p)
        w = jact(d, divmod_(c, h, p)[0], [1] + [0] * (t - 1), p)
        assert any(w) and not any(jact(d, h, w, p))
        certs.append(f"({zl(h[:-1])}, {zl(w)})")
    print(nm, [c.count(';') for c in certs])
    cs = ';'.join('\n  ' + c for c in certs)
    o += f"Lemma reject_{nm} : reject_b P_{f} P_{f}_ok (qi_p {nm}) (qi_t {nm}) rejected_{nm} [{cs}] = true.\n"
    o += "Proof. vm_cast_no_check (eq_refl true). Qed.\n"
open(os.path.join(OUT, 'CertReject.v'), 'w').write(o)
