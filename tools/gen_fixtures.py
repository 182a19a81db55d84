#!/usr/bin/env python3
# Writes rocq/theories/TestFixtures.v: the end-to-end tests of /repo/test-fixtures on the model.
import glob, os
OUT = os.path.join(os.path.dirname(__file__), '../rocq/theories/TestFixtures.v')
o = ['(** The end-to-end tests of /repo/test-fixtures, read by tools/gen_fixtures.py: the model of the compiler is run on',
     '    main.c, its output is assembled and run on the machine of X64Isa.v, linked with TestLib.v, and what it prints',
     '    is compared with expected.txt. These are tests of the models, not properties. *)',
     'From Verif Require Import Base X64Isa Machine TestLib.', 'Open Scope Z_scope.', '']
def lst(b): return '[' + '; '.join(map(str, b)) + ']'
for f in sorted(glob.glob('/repo/test-fixtures/*/main.c')):
    d = os.path.dirname(f)
    n = os.path.basename(d).replace('-', '_')
    o.append('(** test-fixtures/%s *)' % os.path.basename(d))
    o.append('Definition src_%s : list Z :=\n  %s.' % (n, lst(open(f, 'rb').read())))
    o.append('Example fixture_%s_ok : output_of (run_source 100000 src_%s) = Some\n  %s.\nProof. vm_compute. reflexivity. Qed.'
             % (n, n, lst(open(d + '/expected.txt', 'rb').read())))
open(OUT, 'w').write('\n'.join(o) + '\n')
