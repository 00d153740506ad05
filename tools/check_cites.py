#!/usr/bin/env python3
"""Check the citations of the model: `file.rs:a-b` must exist in /repo and, where the definition that follows has a counterpart
of the same name in Rust, that name must be defined inside the cited lines.  Prints what it cannot confirm."""
import re, os, sys
R = '/repo/src'
FILES = {}
for d, _, fs in os.walk(R):
    for f in fs:
        if f.endswith('.rs'): FILES.setdefault(f, []).append(os.path.join(d, f))
def lookup(c):
    c = c.replace('src/', '')
    for p in (os.path.join(R, c), os.path.join(R, 'z80', c), os.path.join(R, 'cpu', c), os.path.join('/repo/examples/ral1243/src', c), os.path.join('/repo', c)):
        if os.path.exists(p): yield p
MODEL = 'Base Flags Ops Parse Cpu Flavours Prog Internal Instr Exec Clock Format Disasm Any Opconsts Serde RalMemory RalBus'.split()
bad = n = conf = 0
for f in MODEL:
    ls = open(f'/verif/rocq/theories/{f}.v').read().split('\n')
    for i, l in enumerate(ls):
        for m in re.finditer(r'((?:\w+/)*\w+\.rs):(\d+)(?:-(\d+))?((?:, \d+(?:-\d+)?)*)', l):
            n += 1
            rng = [(int(m[2]), int(m[3] or m[2]))] + [(int(a), int(b or a)) for a, b in re.findall(r'(\d+)(?:-(\d+))?', m[4])]
            cand = list(lookup(m[1]))
            if not cand: print(f'{f}.v:{i+1}: no file {m[1]}'); bad += 1; continue
            ok = False
            for p in cand:
                t = open(p).read().rstrip('\n').split('\n')
                if any(b > len(t) for _, b in rng): continue
                ok = True; break
            if not ok: print(f'{f}.v:{i+1}: {m[0]} is past the end ({len(t)} lines)'); bad += 1; continue
            d = re.search(r'(?:Definition|Fixpoint|Inductive|Record) (\w+)', l) or next((re.search(r'(?:Definition|Fixpoint|Inductive|Record) (\w+)', x) for x in ls[i+1:i+4] if re.search(r'(?:Definition|Fixpoint|Inductive|Record) (\w+)', x)), None)
            if not d: continue
            name = re.sub(r'^(any|ts|dflt|q|m|bus|tclock|mem)_', '', d[1])
            hits = [k + 1 for k, x in enumerate(t) if re.search(r'(fn|const|struct|enum|macro_rules!|trait|type) %s\b' % name, x)]
            if hits and not any(a <= h <= b for h in hits for a, b in rng): print(f'{f}.v:{i+1}: {m[0]} for {d[1]}: defined at {hits}'); bad += 1
            elif hits: conf += 1
# every other file: the cited lines must exist
SRC = {}
for d, _, fs in os.walk('/repo'):
    if '/.git' in d: continue
    for f in fs:
        if f.endswith(('.rs', '.rb')): SRC.setdefault(f, []).append((os.path.join(d, f), len(open(os.path.join(d, f), errors='replace').read().splitlines())))
T = '/verif/rocq/theories'
for f in [os.path.join(T, x) for x in sorted(os.listdir(T)) if x.endswith('.v') and x[:-2] not in MODEL] + ['/verif/DESIGN.md']:
    for i, l in enumerate(open(f)):
        for m in re.finditer(r'([\w/]+\.(?:rs|rb)):(\d+)(?:-(\d+))?', l):
            n += 1
            c = SRC.get(os.path.basename(m[1]), [])
            c = [x for x in c if x[0].endswith('/' + m[1])] or c
            if int(m[3] or m[2]) < int(m[2]) or not any(int(m[3] or m[2]) <= k for _, k in c):
                print(f'{os.path.basename(f)}:{i+1}: {m[0]} is past the end'); bad += 1
print(n, 'citations,', conf, 'confirmed by name,', bad, 'wrong')
