#!/usr/bin/env python3
"""Writes rocq/theories/Shuffle.v: the program of the crate's shuffle test, byte for byte, its symbols and its expected
results; --check compares."""
import json, sys
R = '/repo/tests/shuffle/'
O = '/verif/rocq/theories/Shuffle.v'
SYM = ['seed', 'multiplicator', 'target', 'target_end', 'routine', 'shuffle', 'sort.selection_asc', 'sort.selection_desc',
       'sort.insertion_asc', 'sort.insertion_desc', 'sort.quick_asc', 'sort.quick_desc', 'mul_seed', 'stackbot', 'stackend']
def lst(b):
    out, line = [], '  '
    for i, x in enumerate(b):
        w = str(x) + ('; ' if i < len(b) - 1 else '')
        if len(line) + len(w) > 120: out.append(line.rstrip()); line = '  '
        line += w
    return '[\n' + '\n'.join(out + [line]) + ']'
def body():
    out = ['(** The program of the crate\'s shuffle test: tests/shuffle/shuffle.bin byte for byte, symbols of tests/shuffle/shuffle.meta and',
           '    expected results tests/shuffle/shuffled_*.bin (written by tools/gen_shuffle.py). *)',
           'From Coq Require Import ZArith List.', 'Import ListNotations.', 'Open Scope Z_scope.', '']
    meta = json.load(open(R + 'shuffle.meta'))
    for s in SYM: out.append('Definition at_%s : Z := %d.' % (s.replace('sort.', ''), meta[s]))
    out += ['', '(* tests/shuffle/shuffle.bin *)', 'Definition image : list Z := %s.' % lst(open(R + 'shuffle.bin', 'rb').read())]
    for s in ['0000', '0368', '8000', 'BACA', 'D9AB', 'FFFF']:
        out += ['(* tests/shuffle/shuffled_%s.bin *)' % s, 'Definition shuffled_%s : list Z := %s.' % (s, lst(open(R + 'shuffled_%s.bin' % s, 'rb').read()))]
    return '\n'.join(out) + '\n'
if '--check' in sys.argv:
    sys.exit(0 if open(O).read() == body() else 'Shuffle.v differs from ' + R)
t = body()
open(O, 'w').write(t)
