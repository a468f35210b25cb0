"""Prints rocq/theories/VendoredTables.v: the test vectors of
/repo/vendor/hadeshash/code/test_vectors.txt, and for each of their scripts the solution
w of (M without row and column 0) w = (column 0 of M without entry 0) modulo the prime."""
import re
base = '/repo/vendor/hadeshash/code/'
print('''(** The test vectors of /repo/vendor/hadeshash/code/test_vectors.txt, and certificates for
    the matrices of their scripts.  Generated by tools/mkvectors.py. *)
From Coq Require Import ZArith.
From mathcomp Require Import all_ssreflect.
From Verif Require Import GrainTables.
Local Open Scope Z_scope.

Record test_vector := TestVector {
  tv_script : vendored;
  tv_input : seq Z;
  tv_output : seq Z;
  (** not in the file: the column [M_hat^-1 * w] of the script's matrix, checked by the proofs *)
  tv_w_hat : seq Z }.
''')
lines = open(base + 'test_vectors.txt').read().split('\n')
names = []
for i, l in enumerate(lines):
    m = re.match(r'# poseidonperm_(\w+)', l)
    if not m: continue
    f = m.group(1)
    src = open(base + 'poseidonperm_%s.sage' % f).read()
    p = int(re.search(r'^prime = (\S+)', src, re.M).group(1), 0)
    mds = re.search(r'^MDS_matrix = \[(.*?)\]\]', src, re.S | re.M).group(1)
    M = [[int(x, 16) for x in re.findall(r'0x[0-9a-f]+', r)] for r in mds.split(']')]
    t = len(M)
    A = [M[a][1:] + [M[a][0]] for a in range(1, t)]
    n = t - 1
    for c in range(n):
        q = next(r for r in range(c, n) if A[r][c] % p)
        A[c], A[q] = A[q], A[c]
        inv = pow(A[c][c], -1, p)
        A[c] = [x * inv % p for x in A[c]]
        for r in range(n):
            if r != c:
                k = A[r][c]
                A[r] = [(x - k * y) % p for x, y in zip(A[r], A[c])]
    w = [A[r][n] for r in range(n)]
    hexs = lambda l: '[:: ' + ';\n    '.join(re.findall(r'0x[0-9a-f]+', l)) + ']'
    print('(** Lines %d-%d *)' % (i + 1, i + 5))
    print('Definition vector_%s : test_vector := TestVector %s' % (f, f))
    print('  ' + hexs(lines[i + 2]) + '\n  ' + hexs(lines[i + 4]))
    print('  [:: ' + ';\n    '.join(hex(x) for x in w) + '].\n')
    names.append('vector_' + f)
print('Definition test_vectors : seq test_vector := [:: %s].' % '; '.join(names))
