#!/usr/bin/env python3
"""Print the declared operands and clobbers of the transcribed asm statements of /repo/ruy as Coq definitions (NeonDecl.v)."""
import re

LIST = [('pack_arm.cc', 41, 'pack8_neon'), ('pack_arm.cc', 636, 'pack8_neon_a55'), ('pack_arm.cc', 1093, 'pack8_dotprod'),
        ('pack_arm.cc', 847, 'pack8_dotprod_a55'), ('pack_arm.cc', 1595, 'pack8_row_dotprod'), ('pack_arm.cc', 1743, 'packf_neon'),
        ('pack_arm.cc', 2075, 'packf_neon_a55'),
        ('kernel_arm64.cc', 7745, 'kernelf_neon'), ('kernel_arm64.cc', 8379, 'kernelf_x1'), ('kernel_arm64.cc', 8852, 'kernelf_a55'),
        ('kernel_arm64.cc', 9345, 'kernelf_dotprod_a55'),
        ('kernel_arm64.cc', 136, 'kernel8_neon'), ('kernel_arm64.cc', 1198, 'kernel8_1col'), ('kernel_arm64.cc', 1866, 'kernel8_a55'),
        ('kernel_arm64.cc', 3033, 'kernel8_dotprod'), ('kernel_arm64.cc', 4460, 'kernel8_dotprod_x1'),
        ('kernel_arm64.cc', 5717, 'kernel8_dotprod_1col'), ('kernel_arm64.cc', 6408, 'kernel8_dotprod_a55')]
PACK = ['src_ptr0', 'src_ptr1', 'src_ptr2', 'src_ptr3', 'src_inc0', 'src_inc1', 'src_inc2', 'src_inc3', 'packed_ptr', 'sums_ptr',
        'rows', 'src_zero_point', 'input_xor', 'src_cols', 'packed_stride']
KERNEL = ['lhs_col_ptr', 'rhs_col_ptr', 'lhs_ptr', 'rhs_ptr', 'dst_col_ptr', 'dst_ptr', 'row', 'col', 'params', 'dst_rows', 'dst_cols',
          'dst_tmp_buf', 'dst_type_id']

def ranges(l):
    """seq a n ++ ..."""
    out, l = [], sorted(l)
    while l:
        n = 1
        while n < len(l) and l[n] == l[0] + n:
            n += 1
        out.append('seq %d %d' % (l[0], n)); l = l[n:]
    return ' ++ '.join(out) or '[]'

for path, start, name in LIST:
    lines = open('/repo/ruy/' + path).read().split('\n')
    assert 'asm volatile(' in lines[start - 1], (path, start)
    j = start
    while not lines[j].strip().startswith(':'):
        j += 1
    k = j
    while ');' not in lines[k]:
        k += 1
    text = re.sub(r'\s+', ' ', ' '.join(lines[j:k + 1]))
    outs, ins, clob = [p.strip() for p in text.split(' : ')[-3:]] if not text.startswith(' :') else text[2:].split(' : ')
    names = PACK if path == 'pack_arm.cc' else KERNEL
    number = lambda n: 40 + names.index(n)
    rw = [number(n) for n in re.findall(r'\[ ?(\w+) ?\] ?"\+r"', outs)]
    rd = [number(n) for n in re.findall(r'\[ ?(\w+) ?\] ?"r"', ins)]
    assert outs.count('"') == 2 * len(rw) and ins.count('"') == 2 * len(rd)
    c = re.findall(r'"(\w+)"', clob)
    x = [int(r[1:]) for r in c if r[0] == 'x']; v = [int(r[1:]) for r in c if r[0] == 'v']
    assert len(x) + len(v) + 2 == len(c)
    print('(** %s:%d-%d. *)' % (path, j + 1, k + 1))
    print('Definition %s_decl : asm_decl := {| ad_code := %s; ad_inout := %s; ad_in := %s; ad_x := %s; ad_v := %s; ad_cc := %s; ad_memory := %s |}.'
          % (name, name, ranges(rw), ranges(rd), ranges(x), ranges(v), 'true' if 'cc' in c else 'false', 'true' if 'memory' in c else 'false'))
