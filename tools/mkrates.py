#!/usr/bin/env python3
"""Writes rocq/theories/Rate1.v .. Rate7.v from /repo/poseidon377/src/params/rate_n.rs.

The limbs are copied verbatim; nothing is computed."""
import os, re
root = os.path.dirname(os.path.dirname(os.path.abspath(__file__)))
FIELDS = ['arc', 'mds', 'alpha', 'rounds', 'optimized_mds', 'M_hat', 'v', 'w', 'M_prime',
          'M_doubleprime', 'M_inverse', 'M_hat_inverse', 'M_00', 'M_i', 'v_collection',
          'w_hat_collection', 'optimized_arc']
EL = re.compile(r'from_montgomery_limbs\(\[\s*(\d+),\s*(\d+),\s*(\d+),\s*(\d+),?\s*\]\)')

def els(txt):
    return [m.groups() for m in EL.finditer(txt)]

def coq_list(l, ind='    '):
    return '[::\n' + ';\n'.join(ind + '(L %s %s %s %s)' % e for e in l) + ']'

for n in range(1, 8):
    path = '/repo/poseidon377/src/params/rate_%d.rs' % n
    src = open(path).read()
    start = src.index('PoseidonParameters {\n')
    g = re.search(r'PoseidonParameters<([\d, ]+)>', src).group(1)
    gen = [int(x) for x in g.split(',')]
    t, t1, ne, ne1, rows, cols, nre, npr = gen
    M = re.search(r'\n +M: (\d+),', src).group(1)
    pos = []
    for f in FIELDS:
        m = re.search(r'\n +%s: ' % f, src[start:])
        pos.append((start + m.start() + 1, f))
    pos.sort()
    txt, line = {}, {}
    for k, (p, f) in enumerate(pos):
        e = pos[k + 1][0] if k + 1 < len(pos) else len(src)
        txt[f] = src[p:e]
        line[f] = (src.count('\n', 0, p) + 1, src.count('\n', 0, e))
    alpha = re.search(r'Alpha::Exponent\((\d+)\)', txt['alpha']).group(1)
    rP = re.search(r'r_P: (\d+)', txt['rounds']).group(1)
    rF = re.search(r'r_F: (\d+)', txt['rounds']).group(1)
    total = sum(len(els(txt[f])) for f in FIELDS)
    assert total == src.count('from_montgomery_limbs'), n
    def dims(f):
        return re.search(r'::<(\d+), (\d+)', txt[f])
    assert re.search(r'ArcMatrix::<%d, %d, %d>' % (rows, cols, nre), txt['arc'])
    assert re.search(r'OptimizedArcMatrix::<%d, %d, %d>' % (rows, cols, nre), txt['optimized_arc'])
    shp = {'M_hat': (t1, t1), 'M_hat_inverse': (t1, t1), 'M_prime': (t, t), 'M_doubleprime': (t, t),
           'M_inverse': (t, t), 'M_i': (t, t)}
    for f, (a, b) in shp.items():
        assert re.search(r'SquareMatrix::<%d, %d>' % (a, a * a) if f != 'M_i' else r' Matrix::<%d, %d, %d>' % (a, a, a * a), txt[f]), (n, f, txt[f][:80])
    for f, (a, b) in {'v': (1, t1), 'w': (t1, 1)}.items():
        assert re.search(r'Matrix::<%d, %d, %d>' % (a, b, a * b), txt[f]), (n, f)
    shp.update({'arc': (rows, cols), 'optimized_arc': (rows, cols), 'mds': (t, t), 'v': (1, t1), 'w': (t1, 1)})
    out = ['(** RATE_%d_PARAMS: /repo/poseidon377/src/params/rate_%d.rs and' % (n, n),
           '    /repo/poseidon377/src/lib.rs.  Generated by tools/mkrates.py: the limbs are',
           '    copied verbatim from the source. *)',
           'From Coq Require Import ZArith.',
           'From mathcomp Require Import ssreflect ssrbool seq.',
           'From Verif Require Import Matrix Params Montgomery.',
           'Local Open Scope Z_scope.',
           'Local Notation L := mkLimbs.', '']
    for f in ['arc', 'mds', 'M_hat', 'v', 'w', 'M_prime', 'M_doubleprime', 'M_inverse',
              'M_hat_inverse', 'M_i', 'optimized_arc']:
        out.append('(** rate_%d.rs:%d-%d *)' % ((n, ) + line[f]))
        out.append('Definition rate_%d_%s : rmat limbs := Rmat %d %d %s.' % ((n, f) + shp[f] + (coq_list(els(txt[f])), )))
        out.append('')
    f = 'M_00'
    out.append('(** rate_%d.rs:%d-%d *)' % ((n, ) + line[f]))
    (e, ) = els(txt[f])
    out.append('Definition rate_%d_M_00 : limbs := L %s %s %s %s.' % ((n, ) + e))
    out.append('')
    for f, (a, b) in {'v_collection': (1, t1), 'w_hat_collection': (t1, 1)}.items():
        out.append('(** rate_%d.rs:%d-%d *)' % ((n, ) + line[f]))
        parts = re.split(r'Matrix::<(\d+), (\d+), (\d+)>', txt[f])
        ms = []
        for k in range(1, len(parts), 4):
            ra, rb, rc = map(int, parts[k:k + 3])
            assert rc == ra * rb
            ms.append('  Rmat %d %d %s' % (ra, rb, coq_list(els(parts[k + 3]))))
        assert len(ms) == npr, (n, f, len(ms))
        out.append('Definition rate_%d_%s : seq (rmat limbs) := [::\n%s].' % (n, f, ';\n'.join(ms)))
        out.append('')
    out.append('(** rate_%d.rs:8-%d *)' % (n, src.count('\n')))
    out.append('Definition rate_%d_raw : params limbs :=' % n)
    out.append('  Params %d %d %s (Exponent %s%%N) (RoundNumbers %s %s)' % (t, t1, M, alpha, rP, rF))
    out.append('    rate_%d_mds rate_%d_arc rate_%d_optimized_arc' % (n, n, n))
    out.append('    (OptimizedMds ' + ' '.join('rate_%d_%s' % (n, f) for f in
        ['M_hat', 'v', 'w', 'M_prime', 'M_doubleprime', 'M_inverse', 'M_hat_inverse', 'M_00', 'M_i',
         'v_collection', 'w_hat_collection']) + ').')
    out.append('')
    out.append('Definition RATE_%d_PARAMS := from_montgomery_params rate_%d_raw.' % (n, n))
    open(root + '/rocq/theories/Rate%d.v' % n, 'w').write('\n'.join(out) + '\n')
    print(n, total)
