#!/usr/bin/env python3
"""Writes rocq/theories/MdsRunData.v: the candidate matrices of vendor/generate_mds.sage for its
five instances, with evidence for or against eigenvalues in the field.  Nothing here is trusted:
the numbers are checked in MdsRun.v."""
import os, random
from hashlib import sha256
random.seed(1)
q = 8444461749428370424248824938781546531375899335154063827935233455917409239041
def raw(n, i): return int(sha256(("%s%d" % (n, i)).encode()).hexdigest(), 16)
def inv(a): return pow(a, q - 2, q)
def trim(a):
    a = a[:]
    while a and a[-1] == 0: a.pop()
    return a
def charpoly(M):
    m = len(M); c = [0] * m + [1]
    N = [[0] * m for _ in range(m)]
    for k in range(1, m + 1):
        MN = [[sum(M[i][l] * N[l][j] for l in range(m)) % q for j in range(m)] for i in range(m)]
        N = [[(MN[i][j] + (c[m - k + 1] if i == j else 0)) % q for j in range(m)] for i in range(m)]
        tr = sum(M[i][l] * N[l][i] for i in range(m) for l in range(m)) % q
        c[m - k] = (-tr * inv(k)) % q
    return c
def pmul(a, b):
    r = [0] * (len(a) + len(b) - 1) if a and b else []
    for i, x in enumerate(a):
        for j, y in enumerate(b): r[i + j] = (r[i + j] + x * y) % q
    return trim(r)
def psub(a, b):
    n = max(len(a), len(b))
    return trim([((a[i] if i < len(a) else 0) - (b[i] if i < len(b) else 0)) % q for i in range(n)])
def pdivmod(a, b):
    a = trim(a); d = [0] * max(0, len(a) - len(b) + 1); ib = inv(b[-1])
    while len(a) >= len(b):
        t = a[-1] * ib % q; s = len(a) - len(b); d[s] = t
        a = psub(a, [0] * s + [t * x % q for x in b])
    return trim(d), a
def powmod(base, e, f):
    r = [1]
    for b in bin(e)[2:]:
        r = pdivmod(pmul(r, r), f)[1]
        if b == '1': r = pdivmod(pmul(r, base), f)[1]
    return r
def egcd(a, b):
    """d and u with u a = d modulo b"""
    r0, r1, s0, s1 = trim(a), trim(b), [1], []
    while r1:
        d, r = pdivmod(r0, r1)
        r0, r1, s0, s1 = r1, r, s1, psub(s0, pmul(d, s1))
    i = inv(r0[-1])
    return [x * i % q for x in r0], [x * i % q for x in s0]
def a_root(g):
    while len(g) > 2:
        p = powmod([random.randrange(q), 1], (q - 1) // 2, g)
        h = egcd(psub(p, [1]), g)[0] if psub(p, [1]) else g
        if 1 < len(h) < len(g): g = h
    return -g[0] * inv(g[1]) % q
def kernel(A):
    """a vector of the kernel with first entry 1"""
    m = len(A); A = [r[:] for r in A]; piv = []; r = 0
    for c in range(m - 1, -1, -1):
        k = next((i for i in range(r, m) if A[i][c]), None)
        if k is None: continue
        A[r], A[k] = A[k], A[r]; i = inv(A[r][c]); A[r] = [x * i % q for x in A[r]]
        for j in range(m):
            if j != r and A[j][c]: A[j] = [(x - A[j][c] * y) % q for x, y in zip(A[j], A[r])]
        piv.append(c); r += 1
    v = [0] * m; v[0] = 1
    assert 0 not in piv
    for i, c in enumerate(piv): v[c] = -A[i][0] % q
    return v
def lst(xs): return "[:: " + "; ".join(map(str, xs)) + "]" if xs else "[::]"
def mat(M): return "[:: " + ";\n  ".join(lst(r) for r in M) + "]"
out = ['''(** Written by tools/mkmds.py; the numbers are checked in [MdsRun.v]. *)
From Coq Require Import ZArith.
From Bignums Require Import BigZ.
From mathcomp Require Import all_ssreflect.
Delimit Scope Z_scope with Z.
''']
NX = 12
X = [raw("HadesMDSx", i) for i in range(NX)]; Y = [raw("HadesMDSy", i) for i in range(NX)]
for n, t in (("x", X), ("y", Y)):
    out.append("(** SHA-256 of HadesMDS%s0, HadesMDS%s1, ... *)\nDefinition sha_%s : seq Z := %s%%Z.\n"
               % (n, n, n, lst(t).replace("; ", ";\n  ")))
for m in range(2, 7):
    for a in range(100):
        x, y = X[a * m:a * m + m], Y[a * m:a * m + m]
        M = [[inv(x[i] - y[j]) for j in range(m)] for i in range(m)]
        f = charpoly(M)
        out.append("(** Width %d, attempt %d *)\nDefinition mat_%d_%d : seq (seq BigZ.t) := %s%%bigZ." % (m, a, m, a, mat(M)))
        d, u = egcd(psub(powmod([0, 1], q, f), [0, 1]), f)
        if len(d) == 1:
            out.append("Definition poly_%d_%d : seq BigZ.t := %s%%bigZ." % (m, a, lst([-c % q for c in f[:m]])))
            out.append("Definition inv_%d_%d : seq BigZ.t := %s%%bigZ.\n" % (m, a, lst(pdivmod(u, f)[1])))
            break
        z = a_root(d)
        v = kernel([[(M[i][j] - (z if i == j else 0)) % q for j in range(m)] for i in range(m)])
        assert all((sum(M[i][j] * v[j] for j in range(m)) - z * v[i]) % q == 0 for i in range(m))
        out.append("Definition val_%d_%d : BigZ.t := %d%%bigZ." % (m, a, z))
        out.append("Definition vec_%d_%d : seq BigZ.t := %s%%bigZ.\n" % (m, a, lst(v)))
open(os.path.dirname(os.path.dirname(os.path.abspath(__file__))) + '/rocq/theories/MdsRunData.v', 'w').write("\n".join(out))
