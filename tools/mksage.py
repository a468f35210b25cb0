"""Prints rocq/theories/SageTables.v from poseidonperm_x17.sage: its constants and matrix."""
import re
src = open('/repo/poseidonperm_x17.sage').read()
def lines(m): return '%d-%d' % (src[:m.start()].count('\n') + 1, src[:m.end()].count('\n') + 1)
print('''(** The numbers of /repo/poseidonperm_x17.sage.  Generated by tools/mksage.py: the
    decimals are copied verbatim from the script. *)
From Coq Require Import ZArith.
From mathcomp Require Import seq.
Local Open Scope Z_scope.
''')
for name in ['M', 'alpha', 't', 'prime', 'R_P', 'R_F', 'omega']:
    m = re.search(r'^%s = (\d+)$' % name, src, re.M)
    print('(** line %d *)' % (src[:m.start()].count('\n') + 1))
    if name == 'prime': print('Definition sage_prime : Z := %s.' % m.group(1))
    else: print('Definition sage_%s : nat := %s.' % (name, m.group(1)))
m = re.search(r'round_constants = \[(.*?)\]', src, re.S)
print('(** %s *)\nDefinition sage_round_constants : seq Z := [::' % lines(m))
print(';\n'.join('    ' + x for x in re.findall(r'\d+', m.group(1))) + '\n  ].')
m = re.search(r'MDS_matrix = \[(.*?)\]\]', src, re.S)
print('(** %s *)\nDefinition sage_MDS_matrix : seq (seq Z) := [::' % lines(m))
print(';\n'.join('    [:: ' + '; '.join(re.findall(r'\d+', r)) + ']' for r in re.findall(r'\[([^\[\]]*)', m.group(1))if r.strip()) + '\n  ].')
