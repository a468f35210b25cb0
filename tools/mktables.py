"""Prints rocq/theories/AppendixGData.v from poseidon-paramgen/src/appendix_g.rs:
the rows and primes of the tables, and logarithm certificates for the checker."""
import re
src = open('/repo/poseidon-paramgen/src/appendix_g.rs').read()

def ilog(x, e, d):
    """(d, a, b) with e^a <= x^d <= e^b"""
    if x == 1:
        return (1, 0, 0)
    if e == 2 and x & (x - 1) == 0:
        return (1, x.bit_length() - 1, x.bit_length() - 1)
    y, a = x ** d, 0
    while e ** (a + 1) <= y:
        a += 1
    return (d, a, a if e ** a == y else a + 1)

def mant(p):
    y = p
    while y > 2 ** 50:
        y >>= 48
    return y

# The checker of RoundsEval.v and RoundsCheck.v, to find the cheapest certificates it accepts.
U = 2 ** 20
def cdiv(a, b): return -(-a // b)
def bounds(c):
    d, a, b = c
    if d == 1 and a == b:
        return (a * U, a * U)
    return (a * U * (2**38 - 1) // (d * 2**38), cdiv(b * U * (2**38 + 1), d * 2**38))
def iint(n): return (n * U, n * U)
def iadd(k, j): return (k[0] + j[0], k[1] + j[1])
def isub(k, j): return (k[0] - j[1], k[1] - j[0])
def imul(k, j): return (k[0] * j[0] // U, cdiv(k[1] * j[1], U))
def idiv(k, j): return (k[0] * U // j[1], cdiv(k[1] * U, j[0]))
def ifloor(k): return (k[0] // U * U, k[1] // U * U)
def iceil(k): return (cdiv(k[0], U) * U, cdiv(k[1], U) * U)
def imin(k, j): return (min(k[0], j[0]), min(k[1], j[1]))
def imax(k, j): return (max(k[0], j[0]), max(k[1], j[1]))
def known(k): return k[0] // U == k[1] // U
def ile(k, j): return k[1] <= j[0] or j[1] < k[0]

def accepts(M, t, e, p, cs):
    shift, y = 0, p
    while y > 2 ** 50:
        y >>= 48
        shift += 48
    l = iadd(iint(shift), bounds(cs[0]))
    T = bounds(cs[3])
    C = bounds(cs[1]) if e else iint(2)
    if not ile(iint(M), imul(isub(ifloor(l), C), iint(t + 1))):
        return False
    if e:
        L = bounds(cs[2])
        g1 = imul(L, imin(idiv(iint(M), iint(3)), idiv(l, iint(2))))
        g2 = iadd(iint(t - 1), imin(idiv(imul(L, iint(M)), iint(t + 1)), idiv(imul(L, l), iint(2))))
        return known(iceil(iadd(iceil(imul(L, imin(iint(M), l))), T))) and known(imax(g1, g2))
    half = (U // 2, U // 2)
    g0 = iceil(imul(half, imin(iint(M), l)))
    g2 = iadd(iadd(iint(t - 1), iceil(T)),
              imin(iceil(idiv(iint(M), iint(t + 1))), iceil(imul(half, l))))
    return known(iadd(iceil(T), g0)) and known(imax(iadd(g0, iceil(T)), g2))

def certs(M, t, e, p):
    """The accepted certificates with the smallest powers"""
    y = mant(p)
    best = None
    ds = [1, 2, 3, 4, 6, 8, 12, 16, 24, 32, 48, 64, 96, 128]
    for d0 in ds:
        cp = ilog(y, 2, d0)
        for d3 in (ds[:10] if e else [32]):
            ct = ilog(t, e or 2, d3)
            for cl in (LOGS[e] if e else [(1, 0, 0)]):
                cs = (cp, ilog(e - 1, 2, 32) if e else (1, 0, 0), cl, ct)
                cost = (cp[1] ** 2) + (ct[0] * t.bit_length()) ** 2 + cl[0] ** 2
                if (best is None or cost < best[0]) and accepts(M, t, e, p, cs):
                    best = (cost, cs)
    return best[1]

LOGS = {e: [ilog(2, e, d) for d in range(1, 1025)] for e in (3, 5)}
E_OF = {7: 3, 8: 5, 9: None}
print('''(** The rows of tables 7, 8 and 9 of appendix G of the Poseidon paper and the primes
    they are tested with, transcribed from poseidon-paramgen/src/appendix_g.rs
    (lines 39-215) by tools/mktables.py, with logarithm certificates for [RoundsCheck]. *)
From Coq Require Import ZArith NArith.
From mathcomp Require Import all_ssreflect.
From Verif Require Import Base Params RoundsCheck.
Set Implicit Arguments.

(** [M], [t], [r_F], [r_P], [p] *)
Record row := Row { row_M : N; row_t : nat; row_rF : nat; row_rP : nat; row_p : Z }.
''')
for tab in (7, 8, 9):
    s = src[src.index('let table_%d = [' % tab):]
    rows = re.findall(r'\[(\d+), N, (\d+), (\d+), (\d+), (\d+), (\d+)\]', s[:s.index('];')])
    s = s[s.index('let primes = ['):]
    primes = re.findall(r'"(\d+)"', s[:s.index('];')])
    assert len(rows) == len(primes) == 10
    print('Definition table_%d : seq row := [::' % tab)
    print(';\n'.join('  Row %s%%num %s %s %s %s%%Z' % (M, t, rF, rP, p)
                     for (M, n, t, rF, rP, c), p in zip(rows, primes)) + '].\n')
    e = E_OF[tab]
    out = []
    for (M, n, t, rF, rP, c), p in zip(rows, primes):
        t, p = int(t), int(p)
        cs = certs(int(M), t, e, p)
        out.append('  Certs ' + ' '.join('(%d, %d, %d)' % x for x in cs))
    print('Definition certs_%d : seq certs := [::' % tab)
    print(';\n'.join(out) + ']%Z.\n')
