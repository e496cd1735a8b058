#!/usr/bin/env python3
"""Transcribe the inline assembly of a function of /repo/ruy into a Coq list of instructions.

usage: asm2coq.py FILE FUNCTION[@K] COQ_NAME   (the K-th definition, counting from 0)

Expands the macros of the asm statement (with every RUY_OPT switched on, as in the default build) and prints one Coq
constructor per instruction, followed by the line it comes from and its text."""
import re, sys

SRC = '/repo/ruy/'

def function_lines(path, name):
    lines = open(SRC + path).read().split('\n')
    name, _, k = name.partition('@')
    start = [i for i, l in enumerate(lines) if re.match(r'void %s\(' % name, l)][int(k or 0)]
    while 'asm volatile(' not in lines[start]:
        start += 1
    return lines, start + 1

def macros_of(path, upto):
    """Object macros defined before line [upto] (offsets and flags)."""
    defs = {}
    lines = open(SRC + path).read().split('\n')[:upto]
    for l in lines:
        m = re.match(r'#define (\w+) (.+)$', l)
        if m:
            defs[m.group(1)] = m.group(2).split('//')[0].strip()
    return defs

TOK = re.compile(r'\s*("(?:[^"\\]|\\.)*"|#\w+|\w+|[(),])')

def tokens(text):
    pos, out = 0, []
    text = text.strip()
    while pos < len(text):
        if text[pos:].lstrip().startswith('//'):
            break
        m = TOK.match(text, pos)
        if not m:
            raise SystemExit('cannot read: ' + text[pos:])
        out.append(m.group(1)); pos = m.end()
    return out

def expand(toks, objs, funs, args):
    """Concatenate the string literals of a line."""
    out, i = '', 0
    while i < len(toks):
        t = toks[i]
        if t.startswith('"'):
            out += t[1:-1]; i += 1
        elif t.startswith('#'):
            out += args[t[1:]]; i += 1
        elif t == 'RUY_STR':
            v = toks[i + 2]
            while v in objs:
                v = objs[v]
            out += v; i += 4
        elif t in ('RUY_PREFETCH_LOAD', 'RUY_PREFETCH_STORE'):
            out += expand([toks[i + 2]], objs, funs, args); i += 4
        elif t in funs:
            params, body = funs[t]
            j, vals = i + 2, []
            while toks[j] != ')':
                if toks[j] != ',':
                    vals.append(toks[j])
                j += 1
            out += expand(tokens(body), objs, funs, dict(zip(params, vals))); i = j + 1
        else:
            raise SystemExit('unknown token %s in %s' % (t, toks))
    return out

def asm_text(path, name):
    """The pairs (line, instruction)."""
    lines, i = function_lines(path, name)
    objs, funs, out, skip = dict(macros_of('kernel_common.h', None), **macros_of(path, i)), {}, [], []
    while True:
        n, l = i + 1, lines[i].strip()
        i += 1
        if l.startswith('#define'):
            while l.endswith('\\'):
                l = l[:-1].rstrip() + ' ' + lines[i].strip(); i += 1
            m = re.match(r'#define (\w+)\(([^)]*)\)\s*(.*)$', l)
            funs[m.group(1)] = ([p.strip() for p in m.group(2).split(',')], m.group(3))
        elif l.startswith('#if'):
            assert re.match(r'#if RUY_OPT\(\w+\)', l), l
            skip.append(False)
        elif l.startswith('#else'):
            skip[-1] = True
        elif l.startswith('#endif'):
            skip.pop()
        elif l.startswith('#undef') or l.startswith('//') or not l:
            pass
        elif l.startswith(':'):
            return out
        elif not any(skip):
            text = expand(tokens(l), objs, funs, {})
            for ins in text.split('\\n'):
                if ins.strip():
                    out.append((n, ins.strip()))

LANE = {'b': 1, 'h': 2, 's': 4, 'd': 8}
COND = {'eq': 'EQ', 'ne': 'NE', 'lt': 'LT', 'le': 'LE', 'gt': 'GT', 'ge': 'GE'}

class Bad(Exception):
    pass

def xreg(s, names):
    m = re.match(r'%([wx]?)\[(\w+)\]$', s)
    if m:
        names.add(m.group(2))
        return ('W' if m.group(1) == 'w' else 'X', m.group(2))
    m = re.match(r'([wx])(\d+)$', s)
    if m:
        return (m.group(1).upper(), m.group(2))
    if s == 'wzr':
        return ('W', 'zr')
    raise Bad(s)

def vreg(s):
    """v0.16b -> (0, 1, 16): register, bytes of a lane, lanes."""
    m = re.match(r'v(\d+)\.(\d+)([bhsd])$', s)
    if not m:
        raise Bad(s)
    return m.group(1), LANE[m.group(3)], int(m.group(2))

def vlane(s):
    m = re.match(r'\{?\s*v(\d+)\.([bhsd])\s*\}?\[(\d+)\]$', s)
    if not m:
        raise Bad(s)
    return m.group(1), LANE[m.group(2)], m.group(3)

def imm(s):
    s = s.lstrip('#')
    v = int(s, 0)
    return '(%d)' % v if v < 0 else '%d' % v

def is_imm(s):
    return re.match(r'#?-?(0x[0-9a-f]+|\d+)$', s) is not None

def split(s):
    """Operands, not splitting inside brackets or braces."""
    out, depth, cur = [], 0, ''
    for ch in s:
        if ch in '[{':
            depth += 1
        if ch in ']}':
            depth -= 1
        if ch == ',' and depth == 0:
            out.append(cur.strip()); cur = ''
        else:
            cur += ch
    if cur.strip():
        out.append(cur.strip())
    return out

def operand(ops, names):
    """The last operand of an arithmetic instruction: #imm, reg, or reg, shift."""
    if is_imm(ops[0]):
        if len(ops) > 1:
            raise Bad(str(ops))
        return '(Imm %s)' % imm(ops[0])
    w, r = xreg(ops[0], names)
    if len(ops) == 1:
        return '(Reg %s)' % r
    m = re.match(r'lsl #?(\d+)$', ops[1])
    if m:
        return '(Lsl %s %s)' % (r, m.group(1))
    if ops[1] == 'sxtw':
        return '(Sxtw %s)' % r
    if ops[1] == 'uxtw' and w == 'W':
        return '(Uxtw %s)' % r
    raise Bad(str(ops))

def address(s, names):
    """[base, #imm] or [base, reg, lsl #n]."""
    parts = split(s[1:-1])
    w, b = xreg(parts[0], names)
    if w != 'X':
        raise Bad(s)
    return b, (operand(parts[1:], names) if len(parts) > 1 else '(Imm 0)')

def translate(text, names):
    m = re.match(r'(\d+):$', text)
    if m:
        return 'Label %s' % m.group(1)
    m = re.match(r'\.(inst|word) (0x[0-9a-f]+)\s*//', text)
    if m:
        return 'Inst %s' % m.group(2)
    text = text.split('//')[0].strip()
    op, _, rest = text.partition(' ')
    ops = split(rest)
    if op == 'b' or (op[0] == 'b' and op[1:].lstrip('.') in COND):
        c = 'Always' if op == 'b' else COND[op[1:].lstrip('.')]
        m = re.match(r'(\d+)([fb])$', ops[0])
        return 'B %s (%s %s)' % (c, 'Fwd' if m.group(2) == 'f' else 'Back', m.group(1))
    if op == 'prfm' or op == 'nop':
        return 'Nop'
    if op == 'mov' and ops[0].startswith('v'):
        if re.match(r'v\d+\.16b$', ops[0]):
            return 'VMov %s %s' % (vreg(ops[0])[0], vreg(ops[1])[0])
        if ops[1][0] in 'wx%':
            d, n, i = vlane(ops[0]); return 'Ins %d %s %s %s' % (n, d, i, xreg(ops[1], names)[1])
        d, n, i = vlane(ops[0]); s, n2, j = vlane(ops[1]); assert n == n2
        return 'InsLane %d %s %s %s %s' % (n, d, i, s, j)
    if op == 'mov':
        w, d = xreg(ops[0], names); return 'Mov %s %s %s' % (w, d, operand(ops[1:], names))
    if op in ('add', 'adds', 'sub', 'subs', 'and', 'ands', 'mul') and not ops[0].startswith('v'):
        w, d = xreg(ops[0], names); w2, n = xreg(ops[1], names); assert w == w2
        f = 'true' if op.endswith('s') and op != 'mul' else 'false'
        return 'Alu %s %s %s %s %s %s' % ({'ad': 'AAdd', 'su': 'ASub', 'an': 'AAnd', 'mu': 'AMul'}[op[:2]], f, w, d, n, operand(ops[2:], names))
    if op == 'cmp':
        w, n = xreg(ops[0], names); return 'Cmp %s %s %s' % (w, n, operand(ops[1:], names))
    if op == 'tst':
        w, n = xreg(ops[0], names); return 'Tst %s %s %s' % (w, n, operand(ops[1:], names))
    if op == 'csel':
        w, d = xreg(ops[0], names)
        return 'Csel %s %s %s %s %s' % (w, d, xreg(ops[1], names)[1], xreg(ops[2], names)[1], COND[ops[3]])
    if op == 'ccmp':
        w, n = xreg(ops[0], names); assert ops[2] == '0'
        return 'Ccmp %s %s %s %s' % (w, n, operand([ops[1]], names), COND[ops[3]])
    if op == 'dup' and ops[0][0] == 'd':
        s, n2, i = vlane(ops[1]); assert n2 == 8
        return 'DupLane 8 1 %s %s %s' % (ops[0][1:], s, i)
    if op == 'dup':
        d, n, k = vreg(ops[0])
        if ops[1].startswith('v'):
            s, n2, i = vlane(ops[1]); assert n == n2
            return 'DupLane %d %d %s %s %s' % (n, k, d, s, i)
        return 'Dup %d %d %s %s' % (n, k, d, xreg(ops[1], names)[1])
    if op == 'movi':
        d, n, k = vreg(ops[0])
        assert n == 1 or imm(ops[1]) == '0'
        return 'Movi %s %s' % (d, imm(ops[1]))
    if op == 'mvni':
        d, n, k = vreg(ops[0])
        assert n * k == 16 and imm(ops[1]) == '0'
        return 'Movi %s 255' % d
    if op == 'st1' and ops[0].count('v') == 2:
        a, b = [vreg(r.strip()) for r in ops[0].strip('{} ').split(',')]
        assert int(b[0]) == int(a[0]) + 1 and a[1] * a[2] == 16 and a[1:] == b[1:]
        w, x = xreg(ops[1].strip('[]'), names); assert w == 'X'
        return 'St1Two %s %s %s' % (a[0], x, operand(ops[2:], names) if len(ops) > 2 else '(Imm 0)')
    if op in ('ld1', 'st1'):
        m = re.match(r'\[(.*)\]$', ops[1])
        w, b = xreg(m.group(1), names); assert w == 'X'
        post = operand(ops[2:], names) if len(ops) > 2 else '(Imm 0)'
        c = 'Ld1' if op == 'ld1' else 'St1'
        if '[' in ops[0]:
            v, n, i = vlane(ops[0]); return '%sLane %d %s %s %s %s' % (c, n, v, i, b, post)
        v, n, k = vreg(ops[0].strip('{} ')); return '%s %d %s %s %s' % (c, n * k, v, b, post)
    if op in ('ldr', 'str') and ops[0].startswith('q'):
        b, a = address(ops[1], names)
        return '%s %s %s %s' % ('LdrQ' if op == 'ldr' else 'StrQ', ops[0][1:], b, a)
    if op == 'ldr' and ops[0].startswith('d'):
        b, a = address(ops[1], names)
        if len(ops) > 2:   # post-indexed
            assert a == '(Imm 0)'
            return 'Ld1 8 %s %s %s' % (ops[0][1:], b, operand(ops[2:], names))
        return 'LdrD %s %s %s' % (ops[0][1:], b, a)
    if op == 'ldrsh':
        w, r = xreg(ops[0], names); b, a = address(ops[1], names); assert w == 'W' and len(ops) == 2
        return 'Ldrs 2 %s %s %s' % (r, b, a)
    if op == 'ldr' and ops[0].startswith('x') and len(ops) > 2:   # post-indexed
        w, r = xreg(ops[0], names); b, a = address(ops[1], names); assert a == '(Imm 0)' and r != b
        return 'LdrPost 8 %s %s %s' % (r, b, operand(ops[2:], names))
    if op in ('ldr', 'str', 'ldrb', 'strb', 'ldrh', 'strh'):
        w, r = xreg(ops[0], names); b, a = address(ops[1], names)
        n = {'b': 1, 'h': 2}.get(op[3:], 8 if w == 'X' else 4)
        post = operand(ops[2:], names) if len(ops) > 2 else '(Imm 0)'
        assert len(ops) <= 2
        return '%s %d %s %s %s' % ('Ldr' if op.startswith('ldr') else 'Str', n, r, b, a)
    if op == 'ins' and ops[1][0] in 'wx%':
        d, n, i = vlane(ops[0]); return 'Ins %d %s %s %s' % (n, d, i, xreg(ops[1], names)[1])
    if op == 'eor':
        return 'V2 Eor %s %s %s' % (vreg(ops[0])[0], vreg(ops[1])[0], vreg(ops[2])[0])
    if op in ('trn1', 'trn2', 'zip1', 'zip2', 'addp', 'add', 'sub'):
        d, n, k = vreg(ops[0]); a = vreg(ops[1]); b = vreg(ops[2])
        assert n * k == 16 and a[1:] == (n, k) and b[1:] == (n, k)
        return 'V2 (%s %d) %s %s %s' % ({'add': 'VAdd', 'sub': 'VSub'}.get(op, op.capitalize()), n, d, a[0], b[0])
    if op == 'saddlp':
        d, n, k = vreg(ops[0]); a = vreg(ops[1]); assert n == 2 * a[1] and n * k == 16 and a[1] * a[2] == 16
        return 'Saddlp %d %s %s' % (a[1], d, a[0])
    if op == 'sadalp':
        d, n, k = vreg(ops[0]); a = vreg(ops[1]); assert n == 2 * a[1] and n * k == 16 and a[1] * a[2] == 16
        return 'Sadalp %d %s %s' % (a[1], d, a[0])
    if op in ('smull', 'smlal2'):
        d = vreg(ops[0]); a = vreg(ops[1]); b = vreg(ops[2]); k = 8 if op == 'smull' else 16
        assert d[1:] == (2, 8) and a[1:] == (1, k) == b[1:]
        return '%s %s %s %s' % (op.capitalize(), d[0], a[0], b[0])
    if op in ('mul', 'mls', 'sqdmulh') and '[' in ops[2]:
        d = vreg(ops[0]); a = vreg(ops[1]); b, n, i = vlane(ops[2]); assert d[1:] == (4, 4) == a[1:] and n == 4
        return '%sLane %s %s %s %s' % (op.capitalize(), d[0], a[0], b, i)
    if op in ('smin', 'smax', 'umin', 'umax', 'sshl', 'srshl', 'sqdmulh', 'sqadd'):
        d, n, k = vreg(ops[0]); a = vreg(ops[1]); b = vreg(ops[2])
        assert n * k == 16 and a[1:] == (n, k) and b[1:] == (n, k)
        return 'V2 (%s %d) %s %s %s' % (op.capitalize(), n, d, a[0], b[0])
    if op in ('sqxtn', 'sqxtn2', 'sqxtun', 'sqxtun2'):
        d, n, k = vreg(ops[0]); a = vreg(ops[1]); high = op.endswith('2')
        assert a[1] == 2 * n and a[1] * a[2] == 16 and n * k == (16 if high else 8)
        return 'Narrow %s %s %d %s %s' % ('true' if 'u' in op else 'false', 'true' if high else 'false', n, d, a[0])
    if op == 'saddw':
        d = vreg(ops[0]); a = vreg(ops[1]); b = vreg(ops[2]); assert d[1:] == (4, 4) == a[1:] and b[1:] == (2, 4)
        return 'Saddw %s %s %s' % (d[0], a[0], b[0])
    if op in ('fadd', 'fmax', 'fmin'):
        d, n, k = vreg(ops[0]); a = vreg(ops[1]); b = vreg(ops[2]); assert (n, k) == (4, 4) == a[1:] == b[1:]
        return 'V2 %s %s %s %s' % (op.capitalize(), d, a[0], b[0])
    if op == 'fmla':
        d, n, k = vreg(ops[0]); a = vreg(ops[1]); b, n2, i = vlane(ops[2]); assert (n, k) == (4, 4) == a[1:] and n2 == 4
        return 'Fmla %s %s %s %s' % (d, a[0], b, i)
    raise Bad(text)

def main():
    path, name, coq = sys.argv[1:4]
    names = set()
    ins = asm_text(path, name)
    out = []
    for n, t in ins:
        try:
            out.append((translate(t, names), n, t))
        except (Bad, AssertionError) as e:
            raise SystemExit('%s:%d: cannot translate: %s (%s)' % (path, n, t, e))
    print('(** %s:%d-%d, %s. *)' % (path, ins[0][0], ins[-1][0], name))
    print('Definition %s : list instr := [' % coq)
    for k, (c, n, t) in enumerate(out):
        print('  %s%s (* %d: %s *)' % (c, ';' if k + 1 < len(out) else '', n, t.replace('*)', '* )')))
    print('].')
    sys.stderr.write('operands: %s\n' % sorted(names))

main()
