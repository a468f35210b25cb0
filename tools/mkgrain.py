"""Prints rocq/theories/GrainTables.v: the numbers of the five scripts
/repo/vendor/hadeshash/code/poseidonperm_x*.sage."""
import re
base = '/repo/vendor/hadeshash/code/'
print('''(** The numbers of the five scripts /repo/vendor/hadeshash/code/poseidonperm_x*.sage.
    Generated by tools/mkgrain.py: copied from the scripts, hexadecimals as they stand. *)
From Coq Require Import ZArith NArith.
From mathcomp Require Import all_ssreflect.
From Verif Require Import GrainGen.
Local Open Scope Z_scope.

Record vendored := Vendored {
  v_N : nat;
  v_t : nat;
  v_R_F : nat;
  v_R_P : nat;
  v_prime : Z;
  v_round_constants : seq Z;
  v_MDS_matrix : seq (seq Z) }.

(** [n = int(N / t)], lines 4 and 6 *)
Definition v_n (V : vendored) : nat := (v_N V %/ v_t V)%N.
(** The register of the generator run with the arguments 1 0 n t R_F R_P and the prime
    (generate_parameters_grain.sage 5, 9-12, 69-80), after the first 160 steps *)
Definition v_start (V : vendored) : seq bool :=
  warm_up (init_generator 1 0 (N.of_nat (v_n V)) (N.of_nat (v_t V)) (N.of_nat (v_R_F V)) (N.of_nat (v_R_P V))).
''')
for f in ['x5_254_3', 'x5_254_5', 'x5_255_3', 'x5_255_5', 'x3_64_24_optimized']:
    src = open(base + 'poseidonperm_%s.sage' % f).read()
    line = lambda i: src[:i].count('\n') + 1
    def num(k):
        m = re.search(r'^%s = ([^#\n]*)' % k, src, re.M)
        return line(m.start()), m.group(1).strip()
    m = re.search(r'^round_constants = \[(.*?)\]', src, re.S | re.M)
    print('(** %s: lines %s, constants %d-%d *)' % (f, ', '.join(str(num(k)[0]) for k in ['N', 't', 'R_F', 'R_P', 'prime']), line(m.start()), line(m.end())))
    print('Definition %s_round_constants : seq Z := [::' % f)
    print(';\n'.join('    ' + x for x in re.findall(r"0x[0-9a-f]+", m.group(1))) + '\n  ].')
    m = re.search(r'^MDS_matrix = \[(.*?)\]\]', src, re.S | re.M)
    print('(** %d-%d *)' % (line(m.start()), line(m.end())))
    print('Definition %s_MDS_matrix : seq (seq Z) := [::' % f)
    print(';\n'.join('    [:: ' + '; '.join(re.findall(r'0x[0-9a-f]+', r)) + ']' for r in m.group(1).split(']')) + '\n  ].')
    print('Definition %s : vendored := Vendored %s %s %s %s (%s) %s_round_constants %s_MDS_matrix.\n' % (f, num('N')[1], num('t')[1], num('R_F')[1], num('R_P')[1], num('prime')[1], f, f))
