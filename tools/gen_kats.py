#!/usr/bin/env python3
"""Known-answer tests of src/poseidon/poseidon.rs and src/poseidon2/poseidon2.rs as Coq data (ModelKats.v)."""
import re, sys, os
repo = sys.argv[1] if len(sys.argv) > 1 else "/repo"
out = os.path.join(os.path.dirname(os.path.abspath(__file__)), "../rocq/theories/ModelKats.v")
def kats(path):
    """list of (instance, t of input or None, outputs, first line, last line)"""
    lines = open(os.path.join(repo, path)).read().split("\n")
    res = []; inside = False; cur = None
    for n, l in enumerate(lines, 1):
        if re.search(r"fn kats\(\)", l): inside = True; continue
        if not inside: continue
        m = re.search(r"::new\(&(\w+)\)", l)
        if m:
            cur = [m.group(1), [], n, n]; res.append(cur)
        m = re.search(r'from_hex\("(0x[0-9a-f]+)"\)', l)
        if m: cur[1].append(m.group(1)); cur[3] = n
        if re.match(r"    }\s*$", l): inside = False
    return res
o = []
o.append("(** * ModelKats: the known-answer tests of the repository (generated by tools/gen_kats.py)\n\n"
 "    The input of each test is 0, 1, ..., t-1; the list is the expected output, position by position. *)")
o.append("From Verif Require Import Base Field ModelInstances.\nLocal Open Scope Z_scope.\n")
for name, ty, path in (("p2_kats", "p2_instance", "src/poseidon2/poseidon2.rs"), ("ps_kats", "ps_instance", "src/poseidon/poseidon.rs")):
    o.append(f"Definition {name} : list ({ty} * list Z) := [")
    k = kats(path)
    o.append(";\n".join(f"  (* {path}:{a}-{b} *)\n  ({i}, [\n    " + ";\n    ".join(str(int(h, 16)) for h in hs) + "])" for i, hs, a, b in k) + "].\n")
open(out, "w").write("\n".join(o))
