#!/usr/bin/env python3
"""Writes rocq/theories/KeyData.v: what can be read off the key files of the
repository without any knowledge of the curve.

ark-groth16 keys, uncompressed: vk = alpha_g1, beta_g2, gamma_g2, delta_g2,
gamma_abc_g1[]; pk = vk, beta_g1, delta_g1, a_query[], b_g1_query[], b_g2_query[],
h_query[], l_query[].  A vector is its length (8 bytes) and its elements; a point of
G1 has 96 bytes, one of G2 192; bit 6 of the last byte marks the point at infinity."""
import os, struct
root = os.path.dirname(os.path.dirname(os.path.abspath(__file__)))
src = '/repo/poseidon-tests/test_vectors/'

class R:
    def __init__(self, f): self.d, self.o = open(f, 'rb').read(), 0
    def skip(self, n): self.o += n
    def vec(self, sz):
        n = struct.unpack_from('<Q', self.d, self.o)[0]
        self.o += 8
        v = [bool(self.d[self.o + sz * i + sz - 1] & 0x40) for i in range(n)]
        self.o += sz * n
        return v
def vk(r):
    r.skip(96 + 3 * 192)
    return r.vec(96)

r = R(src + 'preimage_vk.param')
g = vk(r); assert r.o == len(r.d)
r = R(src + 'preimage_pk.bin')
g2 = vk(r); assert g2 == g
r.skip(2 * 96)
a, b1, b2, h, l = r.vec(96), r.vec(96), r.vec(192), r.vec(96), r.vec(96)
assert r.o == len(r.d)

def bits(name, comment, v):
    s = '(** %s *)\nDefinition %s : seq bool := [::\n' % (comment, name)
    t = [['o', 'x'][x] for x in v]
    rows = ['  ' + '; '.join(t[i:i + 35]) for i in range(0, len(t), 35)]
    return s + ';\n'.join(rows) + '].\n'
out = '''(** Generated by tools/mkkey.py from the key files
    /repo/poseidon-tests/test_vectors/preimage_vk.param and preimage_pk.bin: which
    points are the point at infinity, and lengths. *)
From mathcomp Require Import all_ssreflect.
Set Implicit Arguments.
Unset Strict Implicit.
Unset Printing Implicit Defensive.
Local Notation x := true.
Local Notation o := false.

Definition gamma_abc_len : nat := %d.
Definition h_query_len : nat := %d.
''' % (len(g), len(h))
out += bits('a_query_inf', '[a_query]', a)
out += bits('b_g1_query_inf', '[b_g1_query]', b1)
out += bits('b_g2_query_inf', '[b_g2_query]', b2)
out += bits('l_query_inf', '[l_query]', l)
open(root + '/rocq/theories/KeyData.v', 'w').write(out)
