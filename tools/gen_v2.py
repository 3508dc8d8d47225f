#!/usr/bin/env python3
"""Transcribe /repo/sim/coralnpu_v2.bin_fmt and coralnpu_v2.isa into
rocq/theories/V2Table.v.

Writes the formats (fields and overlays as written) and one row per encoding:
name, format, constraints, source and destination operands, operands of the
child instruction, semantic functions with their bound arguments, and the
mnemonic of the disassembly.  Bit positions are computed in Coq."""
import re, sys
R = '/repo/sim/'
OUT = sys.argv[1] if len(sys.argv) > 1 else '/verif/rocq/theories/V2Table.v'
BIN, ISA = 'coralnpu_v2.bin_fmt', 'coralnpu_v2.isa'
FMT = {'Inst32Format': 'GInst32', 'RType': 'GR', 'RSType': 'GRS', 'R4Type': 'GR4', 'IType': 'GI', 'SType': 'GS',
       'BType': 'GB', 'UType': 'GU', 'JType': 'GJ', 'Fence': 'GFence', 'AType': 'GA', 'F12Type': 'GF12',
       'ZICBOP': 'GZicbop', 'MopRType': 'GMopR', 'MopRRType': 'GMopRR', 'VMem': 'GVMem', 'VArith': 'GVArith',
       'VConfig': 'GVConfig'}
OP = {'==': 'Ceq', '!=': 'Cne', '>': 'Cgt', '<': 'Clt'}

def num(s):
    s = s.replace("'", '').strip()
    return int(s, 2 if s.startswith('0b') else 16 if s.startswith('0x') else 10)

def strip(l): return re.sub(r'//.*', '', l)

def formats():
    txt = '\n'.join(strip(l) for l in open(R + BIN).read().split('\n'))
    for m in re.finditer(r'^format (\w+)\[32\][^{]*\{(.*?)^\}', txt, re.S | re.M):
        body = m.group(2)
        f, _, o = body.partition('overlays:')
        fields = re.findall(r'(signed|unsigned)\s+(\w+)\[(\d+)\]\s*;', f)
        ovl = re.findall(r'(signed|unsigned)\s+(\w+)\[(\d+)\]\s*=\s*([^;]*);', o)
        yield m.group(1), fields, ovl, txt[:m.start()].count('\n') + 1

def pieces(s):
    """imm7[6], imm5[0], imm20[19, 7..0], 0b0 -> list of Coq pieces."""
    out = []
    for m in re.finditer(r"(0b[01']+)|(\w+)(?:\[([^\]]*)\])?", s):
        if m.group(1):
            d = m.group(1)[2:].replace("'", '')
            out.append(f'PLit {len(d)} {int(d, 2)}')
        elif m.group(3) is None:
            out.append(f'PFld "{m.group(2)}"')
        else:
            for r in m.group(3).split(','):
                hi, _, lo = r.strip().partition('..')
                out.append(f'PSl "{m.group(2)}" {int(hi)} {int(lo or hi)}')
    return out

def encodings():
    g, acc, start = None, '', 0
    for i, l in enumerate(open(R + BIN).read().split('\n'), 1):
        l = strip(l).strip()
        m = re.match(r'instruction group (\w+)\[32\]\s*:\s*(\w+)', l)
        if m: g, acc = m.group(1), ''; continue
        if l.startswith('}'): g = None; continue
        if g is None or not l: continue
        if not acc: start = i
        acc += ' ' + l
        if acc.endswith(';'):
            m = re.fullmatch(r'\s*(\w+)\s*:\s*(\w+)\s*:\s*(.*);', acc)
            assert m, acc
            cons = []
            for c in m.group(3).split(','):
                mm = re.fullmatch(r"\s*(\w+)\s*(==|!=|>|<)\s*([0-9a-fxb']+)\s*", c)
                assert mm, (i, c)
                cons.append((mm.group(1), OP[mm.group(2)], num(mm.group(3))))
            yield m.group(1), g, FMT[m.group(2)], cons, start
            acc = ''
    assert not acc

def opcodes():
    txt = open(R + ISA).read()
    txt = re.sub(r'^[ \t]*//.*$', '', txt, flags=re.M)
    out = {}
    n = 0
    for sl in re.finditer(r'^slot (\w+).*?^\}', txt, re.S | re.M):
        for m in re.finditer(r'^    (\w+)\s*\{([^}]*)\}(.*?);[ \t]*$', sl.group(0), re.S | re.M):
            name, ops, rest = m.groups()
            if name == 'includes': continue
            sem = re.findall(r'semfunc:\s*((?:"[^"]*"\s*,?\s*)+)', rest)
            sems = re.findall(r'"([^"]*)"', sem[0]) if sem else []
            dis = re.findall(r'disasm:\s*((?:"[^"]*"\s*,?\s*)+)', rest)
            dis = re.findall(r'"([^"]*)"', dis[0]) if dis else []
            assert name not in out, name
            out[name] = (re.sub(r'\s+', '', ops), sems, dis, sl.group(1), txt[:sl.start() + m.start()].count('\n') + 1)
    return out

def slot(p):
    s = (p.split(':') + ['', '', ''])[:3]
    assert s[0] == '', p
    q = lambda x: '[' + '; '.join(f'"{y}"' for y in x.split(',') if y) + ']'
    return q(s[1]), q(s[2])

def operands(ops):
    ops = re.sub(r'\(\d+\)', '', ops)  # latencies, as in next_pc(0)
    parts = re.findall(r'\(([^)]*)\)', ops) or [ops]
    a = slot(parts[0])
    if len(parts) == 1: return a[0], a[1], 'None'
    assert len(parts) == 2
    b = slot(parts[1])
    return a[0], a[1], f'(Some ({b[0]}, {b[1]}))'

def sem(s):
    s = re.sub(r'\s+', '', re.sub(r'/\*.*?\*/', '', s))
    m = re.fullmatch(r'(?:absl::bind_front\()?&([\w:]+)((?:,\w+)*)\)?', s)
    assert m, s
    f = m.group(1)
    for p, q in (('::mpact::sim::riscv::', ''), ('::coralnpu::sim::', 'coralnpu::')):
        if f.startswith(p): f = q + f[len(p):]
    args = [{'true': 1, 'false': 0}.get(x, x) for x in m.group(2).split(',') if x]
    return f'Fn "{f}" [' + '; '.join(str(int(x)) for x in args) + ']'

def main():
    ops = opcodes()
    enc = list(encodings())
    src, dst = set(), set()
    with open(OUT, 'w') as f:
        f.write('(** * The V2 instruction tables\n\n    Generated by /verif/tools/gen_v2.py; do not edit.  Formats and one row per\n'
                '    encoding, with the lines of /repo/sim/coralnpu_v2.bin_fmt and\n    /repo/sim/coralnpu_v2.isa they come from. *)\n'
                'From Verif Require Import V2DecTypes.\nFrom Coq Require Import String List ZArith.\nImport ListNotations.\n'
                'Open Scope string_scope.\nOpen Scope Z_scope.\n\n')
        fs = list(formats())
        f.write('(** Fields, most significant first: signed, name, width. *)\nDefinition vfields (f : fmt2) : list (bool * string * Z) :=\n  match f with\n')
        B = {'signed': 'true', 'unsigned': 'false'}
        for n, fl, ov, ln in fs:
            assert sum(int(x[2]) for x in fl) == 32, n
            f.write(f'  (* {BIN}:{ln} *)\n  | {FMT[n]} => [' + '; '.join(f'({B[s]}, "{k}", {w})' for s, k, w in fl) + ']\n')
        f.write('  end.\n(** Overlays: signed, name, width, pieces from the most significant. *)\n'
                'Definition voverlays (f : fmt2) : list (bool * string * Z * list piece) :=\n  match f with\n')
        for n, fl, ov, ln in fs:
            f.write(f'  | {FMT[n]} => [' + '; '.join(f'({B[s]}, "{k}", {w}, [' + '; '.join(pieces(p)) + '])' for s, k, w, p in ov) + ']\n')
        f.write('  end.\n\n')
        groups = {}
        for name, g, fmt, cons, ln in enc:
            o, sems, dis, sl, iln = ops[name]
            a, b, c = operands(o)
            cs = '; '.join(f'{k} "{x}" {v}' for x, k, v in cons)
            d = dis[0] if dis else ''
            groups.setdefault(g, []).append(
                f'  (* {BIN}:{ln} {ISA}:{iln} *)\n  E2 "{name}" {fmt} [{cs}]\n    {a} {b} {c} [{"; ".join(sem(x) for x in sems)}] "{d}"')
        for g, rows in groups.items():
            f.write(f'Definition tab2_{g} : list entry2 := [\n' + ';\n'.join(rows) + '\n].\n\n')
        f.write('(** The order of the decoder declaration, coralnpu_v2.bin_fmt:22-34, 39. *)\nDefinition all2 : list entry2 :=\n  ')
        order = ['RiscVIInstBase32', 'RiscVIHints32', 'RiscVZicsrInst32', 'RiscVZifenceiInst32', 'RiscVMInst32', 'RiscVFInst32',
                 'RiscVZve32xInst32', 'RiscVZbbInst32', 'RiscVZbbInst32Only', 'RiscVZbbImmInst32', 'RiscVPrivInst32',
                 'CoralNPUV2CustomInst32']
        assert sorted(order) == sorted(groups)
        f.write('\n  ++ '.join(f'tab2_{g}' for g in order).replace('  ++', '  ++') + '.\n')
    n = {x[0] for x in enc}
    print(len(enc), 'rows', {g: len(r) for g, r in groups.items()}, 'no encoding:', [x for x in ops if x not in n])
main()
