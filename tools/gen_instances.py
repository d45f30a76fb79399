#!/usr/bin/env python3
"""Transcribes the constants of src/poseidon2/poseidon2_instance_*.rs and
src/poseidon/poseidon_instance_*.rs into rocq/theories/DataP2_*.v and DataPS_*.v, and the argument
lists of the published parameter objects into rocq/theories/ModelInstances.v.

usage: gen_instances.py [repo]     (default /repo)

A literal from_hex("0x...") becomes the Z numeral with the same digits; the number of digits is the
same for all constants of one field and is recorded in the instance."""
import os, re, sys

REPO = sys.argv[1] if len(sys.argv) > 1 else '/repo'
HERE = os.path.dirname(os.path.abspath(__file__))
OUT = os.path.join(HERE, '../rocq/theories')
FIELDS = ['babybear', 'bls12', 'bn256', 'goldilocks', 'pallas', 'vesta']

def parse(path):
    src = open(path).read()
    src = re.sub(r'//[^\n]*', '', src)
    line = lambda pos: src.count('\n', 0, pos) + 1
    data, inst = {}, []
    for m in re.finditer(r'pub static ref (\w+): (Vec<Vec<Scalar>>|Vec<Scalar>) = (vec!\[.*?\]);', src, re.S):
        b = m.group(3).replace('vec![', '[')
        b = re.sub(r'from_hex\(\s*"([^"]*)"\s*,?\s*\)', r'"\1"', b)
        assert re.fullmatch(r'[\s\[\],]*("0x[0-9a-f]+"[\s\[\],]*)*', b)
        data[m.group(1)] = (eval(b), line(m.start()), line(m.end()))
    for m in re.finditer(r'pub static ref (\w+_PARAMS): .*?Params::new\((.*?)\)', src, re.S):
        inst.append((m.group(1), [a.strip() for a in m.group(2).split(',') if a.strip()],
                     line(m.start()), line(m.end())))
    return data, inst

def flat(v): return [x for r in v for x in (r if isinstance(r, list) else [r])]

insts = {'poseidon2': [], 'poseidon': []}
for kind, pre in (('poseidon2', 'P2'), ('poseidon', 'PS')):
    for f in FIELDS:
        rel = f'src/{kind}/{kind}_instance_{f}.rs'
        data, inst = parse(os.path.join(REPO, rel))
        width = {len(x) - 2 for v, _, _ in data.values() for x in flat(v)}
        assert len(width) == 1, (rel, width)
        width = width.pop()
        assert width % 2 == 0
        with open(f'{OUT}/Data{pre}_{f}.v', 'w') as o:
            o.write(f'(** * Data{pre}_{f}: the constants of {rel}\n\n    Generated by tools/gen_instances.py. *)\n'
                    'From Coq Require Import ZArith List.\nImport ListNotations.\nLocal Open Scope Z_scope.\n')
            for n, (v, a, b) in data.items():
                o.write(f'\n(** {rel}:{a}-{b} *)\n')
                if v and isinstance(v[0], list):
                    o.write(f'Definition {pre}_{f}_{n} : list (list Z) := [\n' +
                            ';\n'.join(' [' + ';\n  '.join(r) + ']' for r in v) + '].\n')
                else:
                    o.write(f'Definition {pre}_{f}_{n} : list Z := [\n  ' + ';\n  '.join(v) + '].\n')
        for n, args, a, b in inst:
            refs = [f'{pre}_{f}_{x[1:]}' for x in args[4:]]
            assert all(x[0] == '&' and x[1:] in data for x in args[4:])
            insts[kind].append((n, f, width, args[:4], refs, f'{rel}:{a}-{b}'))

with open(f'{OUT}/ModelInstances.v', 'w') as o:
    o.write('''(** * ModelInstances: the published parameter objects of src/poseidon2 and src/poseidon

    Generated by tools/gen_instances.py.  An instance records the modulus of its field, the number of
    bytes of its hexadecimal literals, the first four arguments of [new] and the constants.
    The lazy initialisation of [lazy_static!] is modelled by the value it computes. *)
From Coq Require Import Ascii String.
From Verif Require Import Base Field ModelFields ModelHex SpecHex ModelPoseidon2 ModelPoseidon.
''')
    for pre in ('P2', 'PS'):
        o.write('From Verif Require ' + ' '.join(f'Data{pre}_{f}' for f in FIELDS) + '.\n')
    o.write('''
(** the source text of the literal "0x..." with 2n digits *)
Definition literal (n : nat) (z : Z) : string := String "0" (String "x" (numeral lower_digits (2 * n) z)).

Record p2_instance := P2I {
  qi_p : Z; qi_bytes : nat; qi_t : nat; qi_d : nat; qi_rf : nat; qi_rp : nat;
  qi_diag : list Z; qi_mat : list (list Z); qi_rc : list (list Z) }.
Record ps_instance := PSI {
  si_p : Z; si_bytes : nat; si_t : nat; si_d : nat; si_rf : nat; si_rp : nat;
  si_mds : list (list Z); si_rc : list (list Z) }.

Section Instances.
  Context {F : Type} {Fo : FOps F}.
  Definition vec_literal (n : nat) (v : list Z) : res (list F) := mapM (fun z => from_hex (literal n z)) v.
  Definition mat_literal (n : nat) (m : list (list Z)) : res (list (list F)) := mapM (vec_literal n) m.

  (** poseidon2_instance_*.rs: Poseidon2Params::new(t, d, rf, rp, &MAT_DIAGt_M_1, &MAT_INTERNALt, &RCt) *)
  Definition p2_instance_params (dbg : bool) (I : p2_instance) : res (Poseidon2Params F) :=
    diag <- vec_literal (qi_bytes I) (qi_diag I) ;;
    mat <- mat_literal (qi_bytes I) (qi_mat I) ;;
    rc <- mat_literal (qi_bytes I) (qi_rc I) ;;
    p2_new dbg (qi_t I) (qi_d I) (qi_rf I) (qi_rp I) diag mat rc.
  (** poseidon_instance_*.rs: PoseidonParams::new(t, d, rf, rp, &MDSt, &RCt) *)
  Definition ps_instance_params (dbg : bool) (I : ps_instance) : res (PoseidonParams F) :=
    mds <- mat_literal (si_bytes I) (si_mds I) ;;
    rc <- mat_literal (si_bytes I) (si_rc I) ;;
    ps_new dbg (si_t I) (si_d I) (si_rf I) (si_rp I) mds rc.
End Instances.
''')
    for kind, con, pre, D in (('poseidon2', 'P2I', 'p2', 'P2'), ('poseidon', 'PSI', 'ps', 'PS')):
        o.write('\n')
        for n, f, w, args, refs, cite in insts[kind]:
            refs = [f'Data{D}_{f}.{r}' for r in refs]
            o.write(f'(** {cite} *)\nDefinition {n} : {pre}_instance :=\n  {con} p_{f} {w // 2} ' + ' '.join(args) +
                    ' ' + ' '.join(refs) + '.\n')
        o.write(f'Definition {pre}_instances : list {pre}_instance := [\n  ' +
                ';\n  '.join(n for n, *_ in insts[kind]) + '].\n')
