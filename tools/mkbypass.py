#!/usr/bin/env python3
"""Writes rocq/theories/BypassTable.v: for each rate the state that the first two rounds map
to 0, computed from /repo/poseidon377/src/params/rate_n.rs.  BypassZero.v checks it."""
import os, re
root = os.path.dirname(os.path.dirname(os.path.abspath(__file__)))
EL = re.compile(r'from_montgomery_limbs\(\[\s*(\d+),\s*(\d+),\s*(\d+),\s*(\d+),?\s*\]\)')
q = 8444461749428370424248824938781546531375899335154063827935233455917409239041
ri, i17 = pow(2 ** 256, -1, q), pow(17, -1, q - 1)

def solve(m, b):
    n = len(m)
    a = [r[:] + [x] for r, x in zip(m, b)]
    for c in range(n):
        p = next(r for r in range(c, n) if a[r][c])
        a[c], a[p] = a[p], a[c]
        s = pow(a[c][c], -1, q)
        a[c] = [x * s % q for x in a[c]]
        for r in range(n):
            if r != c:
                a[r] = [(x - a[r][c] * y) % q for x, y in zip(a[r], a[c])]
    return [r[n] for r in a]

out = []
for n in range(1, 8):
    src = open('/repo/poseidon377/src/params/rate_%d.rs' % n).read()
    src = src[src.index('PoseidonParameters {\n'):]
    src = src[re.search(r'\n +arc: ', src).start():]
    t = n + 1
    v = [sum(int(x) << (64 * k) for k, x in enumerate(m.groups())) * ri % q for m in list(EL.finditer(src))[:2 * t]]
    z = solve([[pow(i + t + j, -1, q) for j in range(t)] for i in range(t)], [-x % q for x in v[t:]])
    out.append('[::\n    ' + ';\n    '.join(str((pow(z[k], i17, q) - v[k]) % q) for k in range(t)) + ']')
open(os.path.join(root, 'rocq/theories/BypassTable.v'), 'w').write(
'''(** The states that the first two rounds of the shipped permutations map to 0, by width
    (written by tools/mkbypass.py; checked in [BypassZero.v]). *)
From Coq Require Import ZArith.
From mathcomp Require Import all_ssreflect.
Definition zero_states : seq (seq Z) := [:: [::]; [::];
  %s]%%Z.
''' % ';\n  '.join(out))
