#!/usr/bin/env python3
"""Mutation tests.  usage: mutate.py MUTANTS.json [id ...]

For each mutant: copy the built sources to a scratch directory, make the edit, build.  A lemma whose script fails is admitted
THERE and the build goes on, which shows every script that breaks.  The property theorems that have lost their proof are those that depend on an
admitted lemma (closure() below).
Results are appended to results.jsonl in the scratch directory; nothing in /verif is written.

A failing script is not yet a false theorem: see "how" in seeded/LOG.jsonl."""
import json, os, re, shutil, subprocess, sys, time
SRC, SCR = os.environ.get('MUTSRC', '/verif/rocq'), os.environ.get('MUT', '/tmp/mut')
TGT = os.environ.get('MUT_TARGETS', '').split()     # build only these files and what they need
TMO = int(os.environ.get('MUT_COQC_TIMEOUT', '1200'))
WRAP = '''#!/bin/sh
for a; do f=$a; done
n=$(basename $f .v)
timeout %d "$@" > %s/log/$n.log 2>&1
e=$?
[ $e = 124 ] && echo "TIMEOUT $f" >> %s/log/$n.log
[ $e = 0 ] || echo $n >> %s/log/failed
exit $e
'''
START = re.compile(r'^\s*(?:Local |Global |#\[.*\]\s*)?(Lemma|Theorem|Example|Corollary|Fact|Remark|Definition|Fixpoint|Instance)\s+([\w\']+)', re.M)
END = re.compile(r'\b(Qed|Defined)\.')

def admit(path, pos):
    """Admit the lemma around byte offset pos; its name, or None if it is not a lemma."""
    s = open(path).read()
    ms = [m for m in START.finditer(s) if m.start() <= pos]
    if not ms: return None
    m = ms[-1]; kind, name = m.group(1), m.group(2)
    if kind in ('Definition', 'Fixpoint', 'Instance') and not re.search(r'\.\s+Proof\b', s[m.start():pos+1]): return None
    e = END.search(s, max(pos - 5, m.end()))
    pr = re.search(r'\.\s+Proof\b', s[m.start():e.end() if e else len(s)])
    if pr and m.start() + pr.start() < (e.end() if e else 0):
        s = s[:m.start()+pr.start()] + '. Admitted.' + s[e.end():]
    else:                                  # Example x : T := proof.
        body = s[m.start():]
        k = re.search(r':=.*?\.(?=\s)', body, re.S)
        if not k: return None
        s = s[:m.start()] + body[:k.start()] + '. Admitted.' + body[k.end():]
    open(path, 'w').write(s)
    return name

def offset(path, line, col):
    b = open(path, 'rb').read().split(b'\n')
    return len((b'\n'.join(b[:line-1]) + b'\n' + b[line-1][:col]).decode(errors='ignore')) if line > 1 else col

ITEM = re.compile(r'^(?:Local |Global |#\[.*\]\s*)?(?:Lemma|Theorem|Example|Corollary|Fact|Remark|Definition|Fixpoint|Instance|Inductive|Record|Ltac|Tactic Notation|Hint|Notation|Program)\b\s*([\w\']+)?', re.M)
def closure():
    """theorem -> set of File.name it mentions, directly or not.  Textual: every identifier of an item (statement and
    script) that names an item of the same or of an earlier file counts; so does every lemma given as a hint, for items
    that use auto.  An over-approximation of what a proof uses."""
    order = [l.strip()[9:-2] for l in open(SRC + '/_CoqProject') if l.startswith('theories/')]
    deps, names, hints = {}, {}, set()
    for f in order:
        s = re.sub(r'\(\*.*?\*\)', ' ', open(f'{SRC}/theories/{f}.v').read(), flags=re.S)
        ms = list(ITEM.finditer(s))
        for m, e in zip(ms, [x.start() for x in ms[1:]] + [len(s)]):
            body = s[m.start():e]
            ids = set(re.findall(r"[A-Za-z_][\w']*", body))
            r = set()
            for i in ids:
                if i in names: r |= deps_of(deps, names[i])
            if re.search(r'\bHint (Resolve|Rewrite|Extern|Immediate)', body): hints |= r
            if 'auto' in ids: r |= hints
            n = m.group(1)
            if n:
                key = f'{f}.{n}'; deps[key] = (deps.get(key, set()) | r | {key}) if key in deps else r | {key}; names[n] = key
    return deps
def deps_of(deps, k): return deps[k]

def one(mu):
    subprocess.run(['rsync', '-a', '--delete', '--exclude', 'log', '--exclude', 'results.jsonl', SRC + '/', SCR + '/'], check=True) \
        if shutil.which('rsync') else (shutil.rmtree(SCR + '/theories', ignore_errors=True),
        subprocess.run(f'mkdir -p {SCR}; cp -a {SRC}/. {SCR}/', shell=True, check=True))
    shutil.rmtree(SCR + '/log', ignore_errors=True); os.makedirs(SCR + '/log')
    open(SCR + '/wrap.sh', 'w').write(WRAP % (TMO, SCR, SCR, SCR)); os.chmod(SCR + '/wrap.sh', 0o755)
    p = f'{SCR}/theories/{mu["file"]}'; s = open(p).read()
    if s.count(mu['old']) != 1: return {'id': mu['id'], 'error': f'{s.count(mu["old"])} occurrences'}
    open(p, 'w').write(s.replace(mu['old'], mu['new']))
    subprocess.run('coq_makefile -f _CoqProject -o Makefile', shell=True, cwd=SCR, check=True, stdout=subprocess.DEVNULL)
    for f in os.listdir(SCR + '/theories'):
        if re.fullmatch(r'Prop\w+\.v', f):
            q = f'{SCR}/theories/{f}'; x = open(q).read(); st = os.stat(q)
            open(q, 'w').write(re.sub(r'Print Assumptions \w+\.', '', x)); os.utime(q, ns=(st.st_atime_ns, st.st_mtime_ns))
    admitted, blocked, t0 = [], [], time.time()
    for it in range(60):
        try: os.remove(SCR + '/log/failed')
        except FileNotFoundError: pass
        r = subprocess.run(['nice', 'make', '-k', '-j' + os.environ.get('MUT_J', '3'), f'TIMECMD={SCR}/wrap.sh'] + [f'theories/{t}.vo' for t in TGT], cwd=SCR, stdout=subprocess.DEVNULL, stderr=subprocess.PIPE, text=True)
        if r.returncode == 0: break
        try: bad = sorted(set(open(SCR + '/log/failed').read().split()))
        except FileNotFoundError: blocked.append('make: ' + r.stderr[-200:]); break
        todo = False
        for n in bad:
            if any(b.startswith(n + ':') for b in blocked): continue
            log = open(f'{SCR}/log/{n}.log').read()
            m = re.search(r'File "[^"]*", line (\d+), characters (\d+)-(\d+):\s*\nError', log)
            if not m: blocked.append(f'{n}: ' + ('timeout' if 'TIMEOUT' in log else log[-200:])); continue
            f = f'{SCR}/theories/{n}.v'
            x = admit(f, offset(f, int(m.group(1)), int(m.group(2))))
            if x: admitted.append(f'{n}.{x}'); todo = True
            else: blocked.append(f'{n}: line {m.group(1)}: ' + log[m.end():][:200])
        if not todo or (time.time() - t0) > mu.get('max', 1500): 
            if todo: blocked.append('budget exhausted')
            break
    stuck = {b.split(':')[0] for b in blocked}
    bad = set(admitted) | {k for k in CLO if k.split('.')[0] in stuck}
    lost = sorted(k.split('.')[1] for k, d in CLO.items() if re.match(r'Prop\w+\.C\d\d', k) and d & bad)
    unbuilt = [f[:-2] for f in sorted(os.listdir(SCR + '/theories')) if f.endswith('.v') and not uptodate(f[:-2])]
    if TGT:
        lost = sorted(k.split('.')[1] for k, d in CLO.items() if k.split('.')[0] in TGT and re.match(r'Prop\w+\.C\d\d', k) and d & bad); unbuilt = []
    return {'id': mu['id'], 'admitted': admitted, 'blocked': blocked, 'lost': lost, 'unbuilt': unbuilt, **({'targets': TGT} if TGT else {}), 'seconds': round(time.time() - t0)}
def uptodate(n):
    v, o = f'{SCR}/theories/{n}.v', f'{SCR}/theories/{n}.vo'
    return os.path.exists(o) and os.path.getmtime(o) >= os.path.getmtime(v)

if __name__ == '__main__':
    CLO = closure()
    ids = sys.argv[2:]
    for mu in json.load(open(sys.argv[1])):
        if ids and mu['id'] not in ids: continue
        r = one(mu)
        os.makedirs(SCR, exist_ok=True)
        open(SCR + '/results.jsonl', 'a').write(json.dumps(r) + '\n')
        print(r['id'], r.get('seconds'), 'admitted', len(r.get('admitted', [])), 'lost', len(r.get('lost', [])), r.get('error', ''), flush=True)
