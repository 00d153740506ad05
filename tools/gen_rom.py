#!/usr/bin/env python3
"""Writes rocq/theories/RomImage.v: the ROM of the example computer, byte for byte; --check compares."""
import sys
R = '/repo/examples/ral1243/rom/rom.bin'
O = '/verif/rocq/theories/RomImage.v'
def lst(b):
    out, line = [], '  '
    for i, x in enumerate(b):
        w = str(x) + ('; ' if i < len(b) - 1 else '')
        if len(line) + len(w) > 120: out.append(line.rstrip()); line = '  '
        line += w
    return '[\n' + '\n'.join(out + [line]) + ']'
def body():
    out = ['(** The ROM of the example computer: examples/ral1243/rom/rom.bin byte for byte (written by tools/gen_rom.py). *)',
           'From Coq Require Import ZArith List.', 'Import ListNotations.', 'Open Scope Z_scope.', '',
           '(* examples/ral1243/rom/rom.bin *)', 'Definition kernel : list Z := %s.' % lst(open(R, 'rb').read())]
    return '\n'.join(out) + '\n'
if '--check' in sys.argv:
    sys.exit(0 if open(O).read() == body() else 'RomImage.v differs from ' + R)
t = body()
open(O, 'w').write(t)
