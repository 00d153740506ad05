#!/usr/bin/env python3
"""Translates the unit tests of src/z80/ops.rs and src/cpu/flags.rs, statement by statement, into scripts of the type
[stmt] of UnitScript.v, and writes rocq/theories/UnitOps.v.  With --check it only compares.  The values in the result come
from the text of the tests alone; a statement of a form not listed here stops the translation."""
import re, sys, os
HERE = os.path.dirname(os.path.abspath(__file__))
OUT = os.path.join(HERE, '..', 'rocq', 'theories', 'UnitOps.v')
FLAGS = {'S': 'FS', 'Z': 'FZ', 'Y': 'FY', 'H': 'FH', 'X': 'FX', 'PV': 'FPV', 'P': 'FPV', 'V': 'FPV', 'N': 'FN', 'C': 'FC',
         'XY': 'FXY'}
# how the model returns: w = 16-bit value for a pair of bytes, b = byte, p = pair, f = flags only, o = option
OPS = {'add16': 'w', 'adc16': 'w', 'sbc16': 'w', 'rld': 'p', 'rrd': 'p', 'daa': 'o'}
for o in 'add adc sub sbc neg inc dec cpl and or xor rlca rrca rla rra rlc rrc rl rr sla sll sra srl'.split():
    OPS[o] = 'b'
for o in 'cp ccf scf bit bit_mp ld_a_ir ldx'.split():
    OPS[o] = 'f'
COQ = {'and': 'and8', 'or': 'or8', 'xor': 'xor8'}
PURE = {'set', 'res'}

def tokens(s):
    s = re.sub(r'//[^\n]*', '', s)
    s = re.sub(r'/\*.*?\*/', '', s, flags=re.S)
    t = re.findall(r'\d[0-9A-Za-z_]*|[A-Za-z_]\w*!?|::|\.\.=|<<|&|[^\s\w]', s)
    return t

def num(t):
    t = re.sub(r'(u8|u16)$', '', t).replace('_', '')
    return str(int(t, 0))

class P:
    def __init__(self, toks): self.t, self.i = toks, 0
    def peek(self, k=0): return self.t[self.i + k] if self.i + k < len(self.t) else None
    def next(self): self.i += 1; return self.t[self.i - 1]
    def eat(self, *xs):
        for x in xs:
            y = self.next()
            if x != y: raise SystemExit('expected %r, found %r near %r' % (x, y, self.t[max(0, self.i - 12):self.i + 6]))
    # expressions without side effects: | lowest, then &, then <<, then +, then unary, then postfix
    def expr(self): return self.level(0)
    LV = [[('|', 'Z.lor')], [('&', 'Z.land')], [('<<', 'shl8')], [('+', 'Z.add')]]
    def level(self, n):
        if n == len(self.LV): return self.unary()
        a = self.level(n + 1)
        while any(self.peek() == o for o, _ in self.LV[n]):
            o = self.next(); f = dict(self.LV[n])[o]
            b = self.level(n + 1)
            a = '(%s %s %s)' % (f, a, b)
        return a
    def unary(self):
        if self.peek() == '!':
            self.next(); return '(not8 %s)' % self.unary()
        return self.postfix()
    def postfix(self):
        a = self.atom()
        while self.peek() == '.':
            self.next(); m = self.next(); self.eat('(', ')')
            if m == 'bits': continue
            if m in ('sf', 'zf', 'hf', 'pvf', 'nf', 'cf'): a = '(%s %s)' % (m, a)
            else: raise SystemExit('method ' + m)
        return a
    def args(self):
        self.eat('('); r = []
        while self.peek() != ')':
            r.append(self.expr())
            if self.peek() == ',': self.next()
        self.eat(')'); return r
    def atom(self):
        t = self.next()
        if t == '(':
            a = self.expr()
            if self.peek() == ',':
                self.next(); b = self.expr(); self.eat(')'); return ('pair', a, b)
            self.eat(')'); return a
        if re.match(r'\d', t): return num(t)
        if t in ('true', 'false'): return t
        if t == 'CpuFlags':
            self.eat('::'); n = self.next()
            if n in FLAGS: return FLAGS[n]
            a = self.args()
            if n in ('empty', 'default'): return '0'
            if n == 'all': return '255'
            if n == 'from_bits_truncate': return '(Z.land %s 255)' % a[0]
            if n == 'from_bits_retain': return a[0]
            return '(%s %s)' % (n, ' '.join(a))
        if re.match(r'[a-z]', t):
            if self.peek() == '(' and t in PURE: return '(%s %s)' % (t, ' '.join(self.args()))
            if self.peek() == '(': raise SystemExit('call of ' + t)
            return 'fl' if t == 'flags' else t
        raise SystemExit('atom %r near %r' % (t, self.t[self.i - 5:self.i + 5]))
    def call(self):
        """op(args.., &mut flags) -> (op, args); the first argument may itself be such a call"""
        op = self.next(); kind = OPS[op]; self.eat('('); a = []
        inner = None
        while True:
            if self.peek() == '&' and self.peek(1) == 'mut':
                self.eat('&', 'mut', 'flags', ')'); break
            if self.peek() in OPS and self.peek(1) == '(': inner = self.call()
            else: a.append(self.expr())
            self.eat(',')
        return op, kind, a, inner
    def effect(self, c):
        op, kind, a, inner = c
        if inner is not None:
            iop, ik, ia, ii = inner
            assert ik == 'b' and ii is None and op == 'daa' and not a
            return '(after (%s %s) %s)' % (COQ.get(iop, iop), ' '.join(ia), 'Ops.daa')
        wrap = {'w': 'bytes_of', 'b': 'byte_of', 'p': 'pair_of', 'f': 'none_of', 'o': 'opt_of'}[kind]
        return '(%s (%s %s))' % (wrap, COQ.get(op, op), ' '.join(a))
    def block(self):
        """statements up to the closing brace, as a Coq list"""
        if self.peek() == '}': self.next(); return '[]'
        t = self.peek()
        if t == 'let':
            self.next()
            if self.peek() == 'mut': self.next()
            x = self.next()
            if self.peek() == ';': self.next(); return self.block()
            self.eat('='); e = self.expr(); self.eat(';')
            if x == 'flags': return 'Set_ %s ::\n  %s' % (e, self.block())
            e = e.replace('shl8', 'shl8')
            return '(let %s := %s in\n  %s)' % (x, e, self.block())
        if t == 'for':
            self.next(); v = self.next(); self.eat('in')
            if self.peek() == '[':
                self.next(); l = []
                while self.peek() != ']':
                    l.append(self.expr())
                    if self.peek() == ',': self.next()
                self.eat(']', '.', 'iter', '(', ')', '.', 'cloned', '(', ')')
                rng = '[' + '; '.join(l) + ']'
            else:
                lo = self.expr(); self.eat('..='); hi = self.expr(); rng = '(upto %s %s)' % (lo, hi)
            self.eat('{'); b = self.block()
            return 'Each %s (fun %s => %s) ::\n  %s' % (rng, v, b, self.block())
        if t == 'flags':
            self.next()
            if self.peek() == '=':
                self.next(); e = self.expr(); self.eat(';')
                return 'Set_ %s ::\n  %s' % (e, self.block())
            self.eat('.'); m = self.next(); a = self.args(); self.eat(';')
            s = {'insert': 'Change (fun fl => finsert fl %s)', 'remove': 'Change (fun fl => fremove fl %s)',
                 'reset': 'Set_ 0', 'set': 'Change (fun fl => if %s then finsert fl %s else fremove fl %s)'}[m]
            if m == 'set': s = s % (a[1], a[0], a[0])
            elif a: s = s % a[0]
            return '%s ::\n  %s' % (s, self.block())
        if t == 'assert_eq!':
            self.eat('assert_eq!', '(')
            a = self.expr(); self.eat(',')
            if self.peek() in OPS and self.peek(1) == '(':
                c = self.effect(self.call())
                want = '[%s; %s]' % (a[1], a[2]) if isinstance(a, tuple) else '[%s]' % a
                s = 'Call %s %s' % (c, want)
            else:
                b = self.expr()
                if 'fl' in re.findall(r'\w+', a + ' ' + b):
                    boo = any(x in ('true', 'false') for x in (a, b))
                    s = 'Check (fun fl => %s %s %s)' % ('Bool.eqb' if boo else 'Z.eqb', a, b)
                else:
                    boo = any(x in ('true', 'false') for x in (a, b))
                    s = 'Check (fun _ => %s %s %s)' % ('Bool.eqb' if boo else 'Z.eqb', a, b)
            self.eat(')')
            if self.peek() == ';': self.next()
            return s + ' ::\n  ' + self.block()
        if t in OPS:
            c = self.effect(self.call()); self.eat(';')
            return 'Call %s [] ::\n  %s' % (c, self.block())
        raise SystemExit('statement %r' % self.t[self.i:self.i + 12])

def tests(path):
    src = open(path).read()
    k = src.index('mod tests')
    for m in re.finditer(r'#\[test\]\s*\n\s*fn (\w+)\(\) \{', src[k:]):
        start = k + m.end()
        line = src[:k + m.start(1)].count('\n') + 1
        d, j = 1, start
        while d:
            d += {'{': 1, '}': -1}.get(src[j], 0); j += 1
        last = src[:j].count('\n') + 1
        yield m.group(1), line, last, src[start:j]


# ---- the tests of debug.rs, lib.rs and z80/tests.rs ----
OUT2 = os.path.join(HERE, '..', 'rocq', 'theories', 'UnitCpu.v')
CON = {'CpuDebugArg': {'Imm8': 'DImm8', 'Bit': 'DBit', 'IntMode': 'DIntMode', 'Reg8': 'DReg8', 'Imm16': 'DImm16',
                       'Reg16': 'DReg16', 'Stk16': 'DStk16', 'Addr': 'DAddr', 'Port': 'DPort', 'Cond': 'DCond', 'I': 'DI',
                       'R': 'DR'},
       'CpuDebugArgs': {'None': 'ANone', 'Single': 'ASingle', 'Double': 'ADouble', 'BitOpExt': 'ABitOpExt'},
       'Condition': {'NZ': 'NZ', 'Z': 'CZ', 'NC': 'NC', 'C': 'CC', 'PO': 'PO', 'PE': 'PE', 'P': 'CP_', 'M': 'CM'},
       'StkReg16': {x: 'S' + x for x in ('BC', 'DE', 'HL', 'AF')}}

def con(s):
    """a Rust constructor expression as a Coq one"""
    t = re.findall(r'-?\d\w*|\w+|::|[(),|]|\.\w+', s)
    pos = [0]
    def nxt(): pos[0] += 1; return t[pos[0] - 1]
    def pk(): return t[pos[0]] if pos[0] < len(t) else None
    def one():
        x = nxt()
        if x == '(':
            l = [e()]
            while pk() == ',': nxt(); l.append(e())
            assert nxt() == ')'
            return '(%s)' % ', '.join(l)
        if re.match(r'-?\d', x):
            n = int(x.replace('_', ''), 0); return str(n) if n >= 0 else '(%d)' % n
        if pk() == '::':
            nxt(); y = nxt()
            if x == 'CpuFlags':
                if pk() == '(':
                    nxt(); assert nxt() == ')'
                    return {'empty': '0', 'all': '255'}[y]
                return FLAGS[y]
            x = CON.get(x, {}).get(y, y)
        if x in ('true', 'false', 'None'): return x
        if pk() == '(':
            nxt(); l = [e()]
            while pk() == ',': nxt(); l.append(e())
            assert nxt() == ')'
            return '(%s %s)' % (x, ' '.join(l))
        return x
    def e():
        a = one()
        while pk() == '|': nxt(); a = '(Z.lor %s %s)' % (a, one())
        while pk() == '.bits':
            nxt(); assert nxt() == '(' and nxt() == ')'
        return a
    r = e()
    assert pos[0] == len(t), (s, t[pos[0]:])
    return r

def arg_lines(body):
    arg = None
    for l in body.split('\n'):
        l = l.strip()
        if l.startswith('let mut code'): break                     # the rest is C37_ex_tests
        if not l or l == '}': continue
        m = re.match(r'let arg = (.*);$', l)
        if m: arg = con(m.group(1)); kind = 'args' if 'CpuDebugArgs' in m.group(1) else 'arg'; continue
        m = re.match(r'assert_eq!\((?:arg|(CpuDebugArgs::.*))\.to_string\(\), "(.*)"\);$', l)
        if m:
            a, k = (con(m.group(1)), 'args') if m.group(1) else (arg, kind)
            yield '%s_str Dec false %s' % (k, a), m.group(2); continue
        m = re.match(r'assert_eq!\(format!\("\{:(#?)([xX])\}", arg\), "(.*)"\);$', l)
        yield '%s_str %s %s %s' % (kind, 'LHex' if m.group(2) == 'x' else 'UHex', 'true' if m.group(1) else 'false', arg), m.group(3)

def op_lines(body):
    for l in body.split('\n'):
        l = l.strip()
        if not l or l == '}': continue
        m = re.match(r'(\w+)\((.*),\s*"(.*)"\);$', l)
        f, a, text = m.group(1), [x.strip() for x in m.group(2).split(',')], m.group(3)
        if f == 'test_opcode': yield a[0], '[%s]' % opname(a[1]), text, None
        elif f == 'test_opcode2': yield a[0], '[fst %s; snd %s]' % (a[1], a[1]), text, None
        elif f == 'test_base_match':
            c = '(cond_to_code %s)' % con(a[3][:-len('.to_code()')]) if a[3].endswith('.to_code()') else con(a[3])
            o = '(Z.lor %s %s)' % (a[1], c); yield a[0], '[%s]' % o, text, (o, a[2], a[1])
        elif f == 'test_base_match_ed':
            o = '(Z.lor %s (cond_to_code %s))' % (a[1], con(a[3])); yield a[0], '[ED_PREFIX; %s]' % o, text, (o, a[2], a[1])
        else: raise SystemExit(l)
def opname(x):
    m = re.match(r'RST_(\w\w)H_OPCODE$', x)
    return '(nth %d RST_OPCODES 0)' % (int(m.group(1), 16) // 8) if m else x

ANS = {'get_iffs': 'AnBools', 'get_im': 'AnMode', 'get_reg2': 'AnPair', 'get_alt_reg2': 'AnPair', 'get_index2': 'AnPair'}
def cpu_lines(body):
    text = None
    body = re.sub(r'let debug = format!\("([^"]*)", (.*?)\);\s*assert_eq!\(debug,\s*concat!\((.*?)\)\s*\);',
                  lambda m: 'DEBUG %s @@ %s' % (m.group(1), ' '.join(m.group(3).split('\n'))), body, flags=re.S)
    for l in body.split('\n'):
        l = l.strip().rstrip(';')
        if not l: continue
        m = re.match(r'DEBUG (\S+) @@ (.*)$', l)
        if m:
            parts = re.findall(r'\$\w+|"(?:[^"])*"', m.group(2))
            parts = [re.sub(r'\\\s+', '', x[1:-1]) if x[0] == '"' else x for x in parts]
            assert parts[0] == '$wrap' and parts[2] == '$wrap_end', parts
            if m.group(1) == '{:?}': yield 'Text Dec "%s"' % parts[1]
            else:
                assert m.group(1) == '{:x?}\\n{:x?}' and parts[3:] == ['\\n', '$flavour'], parts
                yield 'Text LHex "%s"' % parts[1]; yield 'Kind'
            continue
        m = re.match(r'assert_eq!\(\$unwrap_cpu\(cpu\.clone\(\)\)\.(ir\.get16\(\)|r\.0), (.*)\)$', l)
        if m: yield 'Field %s %s' % ('(@ir)' if m.group(1)[:2] == 'ir' else '(@r)', con(m.group(2))); continue
        m = re.match(r'assert!\((!?)cpu\.(\w+)\(.*?\)(\.is_none\(\))?\)$', l)
        if m:
            b = 'false' if m.group(1) else 'true'
            if m.group(3): assert m.group(2) == 'irq'; yield 'Want (C_irq false) (AnIrq None)'
            else: yield 'Want C_%s (AnBool %s)' % (m.group(2), b)
            continue
        m = re.match(r'assert_eq!\(cpu\.(\w+)\((.*?)\), (.*)\)$', l)
        if m:
            a = m.group(2); f = m.group(1)
            c = 'C_' + f + ''.join(' ' + con(x.strip()) for x in a.split(',') if x.strip())
            yield 'Want (%s) (%s %s)' % (c, ANS.get(f, 'AnInt'), con(m.group(3))); continue
        m = re.match(r'cpu\.execute_instruction\(&mut dummy, &mut tsc, Option::<CpuDebugFn>::None, (\w+)\)\.unwrap\(\)$', l)
        if m: yield 'Want (C_execute_instruction false %s) (AnResult None)' % con(m.group(1)); continue
        if l == 'cpu.irq(&mut dummy, &mut tsc, Option::<CpuDebugFn>::None).unwrap().unwrap()':
            yield 'Want (C_irq false) (AnIrq (Some None))'; continue
        m = re.match(r'cpu\.(\w+)\((.*)\)$', l)
        args = re.findall(r'\((?:[^()]|\(\))*\)\.bits\(\)|[^,]+', m.group(2))
        yield 'Want (C_%s%s) AnUnit' % (m.group(1), ''.join(' ' + con(x.strip()) for x in args))

def second():
    out = ['(** Generated by tools/gen_unit.py from the unit tests of the crate; do not edit. *)',
           'From Coq Require Import ZArith Bool String List.',
           'From Verif Require Import Base Flags Parse Cpu Flavours Exec Any Format Opconsts UnitTrait.',
           'Import ListNotations.', 'Open Scope string_scope.', 'Open Scope list_scope.', 'Open Scope Z_scope.', '']
    for name, a, b, body in tests('/repo/src/cpu/debug.rs'):
        l = list(arg_lines(body))
        out += ['(* debug.rs:%d-%d: texts of arguments *)' % (a, b), 'Definition %s : list (string * string) :=' % name,
                '  [' + ';\n   '.join('(%s, "%s")' % x for x in l) + '].', '']
    n = len(l)
    for name, a, b, body in tests('/repo/src/lib.rs'):
        l = list(op_lines(re.sub(r'\n\s+fn test.*', '', body, flags=re.S))); n += len(l)
        out += ['(* lib.rs:%d-%d: length, code, text; and the op-code with its mask and base *)' % (a, b),
                'Definition %s : list (nat * list Z * string * option (Z * Z * Z)) :=' % name,
                '  [' + ';\n   '.join('(%s%%nat, %s, "%s", %s)' % (k, c, t, 'Some (%s, %s, %s)' % m if m else 'None') for k, c, t, m in l) + '].', '']
    src = open('/repo/src/z80/tests.rs').read()
    i = src.index('let mut cpu = $factory;') + len('let mut cpu = $factory;'); j = src.index('    };\n}', i)
    l = list(cpu_lines(src[i:j])); n += len(l)
    out += ['(* tests.rs:%d-%d: the macro [z80_test!] *)' % (src[:i].count('\n') + 2, src[:j].count('\n')),
            'Definition z80_test : list tstep :=', '  [' + ';\n   '.join(l) + '].', '']
    return '\n'.join(out), n
def main():
    out = ['(** Generated by tools/gen_unit.py from the unit tests of the crate, one definition per test; do not edit. *)',
           'From Coq Require Import ZArith Bool List.',
           'From Verif Require Import Base Flags Ops UnitScript.',
           'Import ListNotations.', 'Open Scope Z_scope.', '']
    names = []
    for path, pre in (('/repo/src/z80/ops.rs', 'ops'), ('/repo/src/cpu/flags.rs', 'flags')):
        for name, a, b, body in tests(path):
            p = P(tokens(body)); e = p.block()
            assert p.i == len(p.t), name
            n = name if name.startswith('flags') else 'ops_' + name
            names.append((n, body.count('assert_eq!')))
            out += ['(* %s.rs:%d-%d *)' % (pre, a, b), 'Definition %s : list stmt :=' % n, '  %s.' % e, '']
    out += ['Definition all_scripts : list (list stmt) :=', '  [%s].' % ';\n   '.join(n for n, _ in names), '']
    text = '\n'.join(out)
    if '--check' in sys.argv:
        ok = open(OUT).read() == text and open(OUT2).read() == second()[0]
        print('same' if ok else 'DIFFERENT'); sys.exit(not ok)
    open(OUT, 'w').write(text)
    text2, n2 = second()
    open(OUT2, 'w').write(text2)
    print(n2, 'steps of the others')
    print(len(names), 'tests,', sum(k for _, k in names), 'assertions')
main()
