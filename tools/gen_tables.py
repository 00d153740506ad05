#!/usr/bin/env python3
"""Writes rocq/theories/Tables.v: the text of the crate's tables of mnemonics and cycles, verbatim; --check compares."""
import sys
R = '/repo/tests/'
O = '/verif/rocq/theories/Tables.v'
def body():
    out = ['(** The tables of the crate\'s tests, verbatim: tests/mnemonics.txt, tests/mnemonics_prefix.txt, tests/mnemonics_cycles.txt',
           '    (written by tools/gen_tables.py). *)', 'From Coq Require Import String.', 'Open Scope string_scope.', '']
    for n in ['mnemonics', 'mnemonics_prefix', 'mnemonics_cycles']:
        t = open(R + n + '.txt', newline='').read()
        assert '\r' not in t and t.isascii(), n
        out += ['(* tests/%s.txt *)' % n, 'Definition %s : string := "%s".' % (n, t.replace('"', '""'))]
    return '\n'.join(out) + '\n'
if '--check' in sys.argv:
    sys.exit(0 if open(O).read() == body() else 'Tables.v differs from ' + R)
t = body()
open(O, 'w').write(t)
