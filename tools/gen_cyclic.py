"""Writes CertCyclic.v: for each shipped matrix M the lower coefficients f of its characteristic polynomial and
L = lcm(1, ..., 4t).  The Coq checks recompute everything else."""
import re
from math import lcm
from gen_minpoly import P, REPO, OUT, parse, zl

def parse_ps(path):
    src = re.sub(r'//[^\n]*', '', open(path).read())
    data, inst = {}, []
    for m in re.finditer(r'pub static ref (\w+): (Vec<Vec<Scalar>>|Vec<Scalar>) = (vec!\[.*?\]);', src, re.S):
        b = m.group(3).replace('vec![', '[')
        data[m.group(1)] = eval(re.sub(r'from_hex\(\s*"([^"]*)"\s*,?\s*\)', r'\1', b))
    for m in re.finditer(r'pub static ref (\w+_PARAMS): .*?Params::new\((.*?)\)', src, re.S):
        inst.append((m.group(1), [a.strip() for a in m.group(2).split(',') if a.strip()]))
    return data, inst

def solve(K, b, p):          # sum_k c_k K[k] = b
    n = len(K)
    A = [[K[k][i] for k in range(n)] + [b[i]] for i in range(n)]
    for c in range(n):
        piv = next(r for r in range(c, n) if A[r][c])
        A[c], A[piv] = A[piv], A[c]
        iv = pow(A[c][c], -1, p)
        A[c] = [x * iv % p for x in A[c]]
        for r in range(n):
            if r != c and A[r][c]:
                q = A[r][c]
                A[r] = [(x - q * y) % p for x, y in zip(A[r], A[c])]
    return [A[i][n] for i in range(n)]

def lower(M, p):
    t = len(M)
    k = [[1] + [0] * (t - 1)]
    for _ in range(t):
        k.append([sum(a * b for a, b in zip(r, k[-1])) % p for r in M])
    return [-c % p for c in solve(k[:t], k[t], p)]

if __name__ == '__main__':
    with open(f'{OUT}/CertCyclic.v', 'w') as o:
        o.write('(** * CertCyclic: certificates for the Krylov conditions of shipped matrices\n\n'
                '    Generated by tools/gen_cyclic.py. *)\nFrom Coq Require Import Uint63.\n'
                'From Verif Require Import Base Field Fp Primes ModelInstances ProofKrylov.\n')
        for F, p in sorted(P.items()):
            d2, i2 = parse(f'{REPO}/src/poseidon2/poseidon2_instance_{F}.rs')
            d1, i1 = parse_ps(f'{REPO}/src/poseidon/poseidon_instance_{F}.rs')
            todo = [(n, 'qi', [[2, 1, 1], [1, 2, 1], [1, 1, 3]]) for n, a in i2 if int(a[0]) == 3]
            todo += [(n, 'si', d1[a[4][1:]]) for n, a in i1]
            for name, k, M in todo:
                t = len(M)
                mat = 'qi_mat' if k == 'qi' else 'si_mds'
                o.write(f'\nLemma cyclic_{name} : cyclic_cert P_{F} P_{F}_ok ({k}_p {name}) ({k}_t {name}) ({mat} {name})\n'
                        f'  {zl(lower(M, p))}\n  {lcm(*range(1, 4 * t + 1))}%positive = true.\nProof. vm_cast_no_check (eq_refl true). Qed.\n')
