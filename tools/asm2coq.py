#!/usr/bin/env python3
"""Translate /repo/sm2/p256_asm_amd64.s into rocq/theories/AsmSM2.v (lists of instructions of AsmX86.v).

The C preprocessor expands the macros and removes the comments, as the Go assembler does; the rest is a
one to one translation.  Anything not understood is an error."""
import re, subprocess, sys

SRC = sys.argv[1] if len(sys.argv) > 1 else '/repo/sm2/p256_asm_amd64.s'
text = open(SRC).read()
lines = text.split('\n')
code = '\n'.join(l for l in lines if not l.startswith('#include')).replace('·', '').replace('ˆ', '^')
pre = subprocess.run(['cpp', '-P', '-undef', '-w'], input=code, capture_output=True, text=True, check=True).stdout

REGS = 'AX BX CX DX SI DI BP R8 R9 R10 R11 R12 R13 R14 R15'.split()
M = 1 << 64
data = {}

def num(s):
    s = s.strip()
    assert re.fullmatch(r'[-+*()0-9a-fA-Fx\s]+', s), s
    return eval(s)

def xr(s):
    m = re.fullmatch(r'X(\d+)', s)
    return int(m.group(1)) if m else None

def operand(s):
    s = s.strip()
    if s in REGS: return ('r', s)
    if xr(s) is not None: return ('x', xr(s))
    if s.startswith('$'): return ('k', num(s[1:]) % M)
    m = re.fullmatch(r'\w+\+(\d+)\(FP\)', s)
    if m: return ('a', int(m.group(1)))
    m = re.fullmatch(r'(\w+)<>(?:\+(\w+))?\(SB\)', s)
    if m: return ('d', (m.group(1), int(m.group(2) or '0', 0)))
    m = re.fullmatch(r'(.*)\((\w+)\)', s)
    if m and m.group(2) == 'SP': return ('f', num(m.group(1)))
    if m and m.group(2) in REGS: return ('m', (m.group(2), num(m.group(1)) if m.group(1).strip() else 0))
    raise SystemExit('operand? ' + s)

def split_ops(s):
    out, depth, cur = [], 0, ''
    for c in s:
        if c == ',' and depth == 0: out.append(cur); cur = ''; continue
        depth += (c == '(') - (c == ')')
        cur += c
    if cur.strip(): out.append(cur)
    return [o.strip() for o in out]

def src(o):
    k, v = o
    if k == 'r': return '(R %s)' % v
    if k == 'k': return '(K %d)' % v
    if k == 'd': return '(K %d)' % data[v]
    raise SystemExit('source? %r' % (o,))

ARITH = dict(ADDQ='ADD', ADCQ='ADC', SUBQ='SUB', SBBQ='SBB', XORQ='XOR', ANDQ='AND', TESTQ='TEST')
CM = dict(CMOVQCS='CMOVCS', CMOVQEQ='CMOVEQ', CMOVQNE='CMOVNE')
VEC = dict(PXOR='PXOR', PAND='PAND', PANDN='PANDN', PCMPEQL='PCMPEQL', PADDL='PADDL', PSUBL='PSUBL')

def instr(mn, ops):
    if mn in ('SHRQ', 'SHLQ') and len(ops) == 2:
        k = num(ops[0][1:])
        if ':' in ops[1]:
            d, s = ops[1].split(':')
            assert mn == 'SHRQ' and d in REGS and s in REGS
            return 'SHRD %d %s %s' % (k, d, s)
        assert ops[1] in REGS
        return '%s %d %s' % (mn[:3], k, ops[1])
    if mn == 'PSHUFD':
        assert ops[0] == '$0'
        return 'PSHUFD0 %d %d' % (xr(ops[1]), xr(ops[2]))
    o = [operand(x) for x in ops]
    if mn == 'MULQ': return 'MUL %s' % src(o[0])
    if mn == 'BSWAPQ': return 'BSWAP %s' % o[0][1]
    if mn == 'DECQ': return 'DEC %s' % o[0][1]
    (sk, s), (dk, d) = o
    if mn in ARITH:
        assert dk == 'r'
        return '%s %s %s' % (ARITH[mn], src(o[0]), d)
    if mn in CM:
        assert sk == dk == 'r'
        return '%s %s %s' % (CM[mn], s, d)
    if mn == 'PANDN' and sk == 'm': return 'PANDNM %s %d %d' % (s[0], s[1], d)
    if mn in VEC:
        assert sk == dk == 'x'
        return '%s %d %d' % (VEC[mn], s, d)
    if mn == 'MOVOU':
        if (sk, dk) == ('x', 'x'): return 'XMOV %d %d' % (s, d)
        if (sk, dk) == ('m', 'x'): return 'XLD %s %d %d' % (s[0], s[1], d)
        if (sk, dk) == ('x', 'm'): return 'XST %d %s %d' % (s, d[0], d[1])
        if (sk, dk) == ('f', 'x'): return 'XLDF %d %d' % (s, d)
        if (sk, dk) == ('x', 'f'): return 'XSTF %d %d' % (s, d)
        if (sk, dk) == ('d', 'x'): return 'XLDK %d %d %d' % (data[s], data[(s[0], s[1] + 8)], d)
    if mn == 'MOVL':
        if (sk, dk) == ('r', 'x'): return 'XMOVL %s %d' % (s, d)
        if (sk, dk) == ('r', 'f'): return 'STF32 %s %d' % (s, d)
        if (sk, dk) == ('f', 'r'): return 'LDF32 %d %s' % (s, d)
    if mn == 'MOVQ':
        # the assembler may turn a zero moved to a register into XORL, which changes the flags
        if dk == 'r' and sk in 'rkd':
            assert sk != 'k' or s != 0
            return 'MOV %s %s' % (src(o[0]), d)
        if (sk, dk) == ('m', 'r'): return 'LD %s %d %s' % (s[0], s[1], d)
        if (sk, dk) == ('r', 'm'): return 'STO %s %s %d' % (s, d[0], d[1])
        if (sk, dk) == ('a', 'r'): return 'LDA %d %s' % (s, d)
        if (sk, dk) == ('a', 'x'): return 'XLDA %d %d' % (s, d)
        if (sk, dk) == ('f', 'r'): return 'LDF %d %s' % (s, d)
        if dk == 'f' and sk in 'rk': return 'STF %s %d' % (src(o[0]), d)
    raise SystemExit('instruction? %s %r' % (mn, ops))

funcs, cur = [], None
for raw in pre.split('\n'):
    raw = raw.strip()
    if not raw: continue
    b = re.findall(r'BYTE \$(\w+)', raw)
    if b:
        assert [int(x, 0) for x in b] == [0x48, 0xc7, 0xc5, 0, 0, 0, 0], raw
        cur[2].append('MOV (K 0) BP'); continue
    for st in raw.split(';'):
        st = st.strip()
        if not st: continue
        mn, _, rest = st.partition(' ') if ' ' in st else st.partition('\t')
        mn, rest = mn.strip(), rest.strip()
        if mn == 'DATA':
            m = re.fullmatch(r'(\w+)<>\+(\w+)\(SB\)/8,\s*\$(\w+)', rest)
            data[(m.group(1), int(m.group(2), 0))] = int(m.group(3), 0)
        elif mn == 'GLOBL': pass
        elif mn == 'TEXT':
            m = re.match(r'(?:p256_sm2)?(\w+)\(SB\),.*\$(\d+)', rest)
            cur = ['sm2' + m.group(1), int(m.group(2)), []]
            funcs.append(cur)
        elif mn == 'RET': cur[2].append('RET')
        elif mn == 'JMP': cur[2].append('JMP ' + re.match(r'(?:p256_sm2)?(\w+)', rest).group(1))
        elif mn == 'CALL': cur[2].append('CALL ' + re.match(r'(?:p256_sm2)?(\w+)', rest).group(1))
        elif mn == 'JNE': cur[2].append('JNE ' + rest)
        elif mn.endswith(':'): cur[2].append('LABEL ' + mn[:-1])
        else: cur[2].append(instr(mn, split_ops(rest)))

# line numbers of the functions that are not in comments
where, comment, name = {}, False, None
for n, l in enumerate(lines, 1):
    if re.match(r'\s*/\*', l) and '*/' not in l: comment = True
    if '*/' in l: comment = False
    m = re.match(r'TEXT ·?(?:p256_sm2)?(\w+)\(SB\)', l)
    if m and not comment: name = 'sm2' + m.group(1); where[name] = [n, n]
    if not comment and name and l.strip() in ('RET',) or l.strip().startswith('JMP ·'): where[name][1] = n; name = None

out = ['(** * AsmSM2: the functions of /repo/sm2/p256_asm_amd64.s as lists of instructions',
       '',
       '    Written by tools/asm2coq.py from the file; macros (#define, lines 33-44, 1713-1727, 2147-2213,',
       '    2474-2496, 2659-2667) are expanded, DATA words (lines 49-80) appear as constants. *)',
       'From Coq Require Import ZArith List.', 'From Verif Require Import AsmX86.',
       'Import ListNotations.', 'Open Scope Z_scope.', '']

def emit(name, ty, items, note):
    out.append('(** %s:%s *)' % (SRC.replace('/repo/', ''), note))
    out.append('Definition %s : list %s := [' % (name, ty))
    cur = ' '
    for i, it in enumerate(items):
        t = ' ' + it + (';' if i + 1 < len(items) else '')
        if len(cur) + len(t) > 110: out.append(cur); cur = ' '
        cur += t
    out.append(cur); out.append('].'); out.append('')

for name, frame, body in funcs:
    if name not in where: raise SystemExit('no line for ' + name)
    ln = '%d-%d' % tuple(where[name])
    if body[0].startswith('JMP '):
        assert len(body) == 1
        assert where['sm2' + body[0][4:]]
        jmps = (name, 'sm2' + body[0][4:], ln)
        continue
    assert body[-1] == 'RET' and body.count('RET') == 1, (name, body[-1])
    body = body[:-1]
    lab = [i for i, b in enumerate(body) if b.startswith('LABEL')]
    if lab:
        i, = lab
        j, = [k for k, b in enumerate(body) if b.startswith('JNE')]
        assert body[j].split()[1] == body[i].split()[1]
        assert body[j - 1].startswith('DEC ')
        emit(name + '_body', 'instr', body[i + 1:j], ln + ', the loop')
        items = ['Do (%s)' % b for b in body[:i]] + ['Loop %s_body' % name] + ['Do (%s)' % b for b in body[j + 1:]]
        emit(name, 'item', items, ln)
    elif any(b.startswith('CALL') for b in body):
        emit(name, 'item', ['Call sm2' + b[5:] if b.startswith('CALL') else 'Do (%s)' % b for b in body], ln)
    else:
        emit(name, 'instr', body, ln)
    out.append('Definition %s_frame : nat := %d%%nat.' % (name, frame // 8)) if frame else None
    if frame: out.append('')
out.append('(** %s:%s: a jump to the other function *)' % (SRC.replace('/repo/', ''), jmps[2]))
out.append('Definition %s : list instr := %s.' % jmps[:2])
print('\n'.join(out))
